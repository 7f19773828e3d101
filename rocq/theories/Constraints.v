(** Constraints of the constructors and assignments of option<T>.

    Models: include/opt/option.hpp 1817-1840 (is_initializable_from), 2648-2790 (option_checks_base and its
    helpers) and the template parameters of 2836-2990.

    A type is a reference qualifier, const, volatile and an unqualified type; is_same is equality.  What the
    compiler answers about T itself (is_constructible, is_convertible, is_assignable, is_aggregate,
    list-initialisation, conversion of pointers) is a record of functions. *)
From Coq Require Import Bool List Arith.
Import ListNotations.

(** * Types *)

Inductive refq : Type := NoRef | LRef | RRef.

Inductive ctype : Type := ct (r : refq) (c v : bool) (b : name)
with name : Type :=
  | Named (n : nat)          (* any type that is none of the following *)
  | Bool
  | InPlace                  (* std::in_place_t *)
  | OptionOf (t : ctype)     (* opt::option<t> *)
  | WrapperOf (t : ctype).   (* std::reference_wrapper<t> *)

Definition refq_eqb (a b : refq) : bool :=
  match a, b with NoRef, NoRef => true | LRef, LRef => true | RRef, RRef => true | _, _ => false end.

(** std::is_same. *)
Fixpoint same (a b : ctype) : bool :=
  match a, b with
  | ct r c v x, ct r' c' v' y => refq_eqb r r' && Bool.eqb c c' && Bool.eqb v v' && same_name x y
  end
with same_name (x y : name) : bool :=
  match x, y with
  | Named n, Named m => n =? m
  | Bool, Bool => true
  | InPlace, InPlace => true
  | OptionOf t, OptionOf u => same t u
  | WrapperOf t, WrapperOf u => same t u
  | _, _ => false
  end.

Definition remove_reference (t : ctype) : ctype := match t with ct _ c v b => ct NoRef c v b end.
Definition remove_cv (t : ctype) : ctype := match t with ct NoRef _ _ b => ct NoRef false false b | _ => t end.
Definition remove_const (t : ctype) : ctype := match t with ct NoRef _ v b => ct NoRef false v b | _ => t end.
Definition remove_cvref (t : ctype) : ctype := match t with ct _ _ _ b => ct NoRef false false b end.
Definition is_lref (t : ctype) : bool := match t with ct LRef _ _ _ => true | _ => false end.
Definition is_reference (t : ctype) : bool := match t with ct NoRef _ _ _ => false | _ => true end.
Definition is_option (t : ctype) : bool := match t with ct NoRef false false (OptionOf _) => true | _ => false end.

(** T& , const T&, T&&, const T&& with reference collapsing. *)
Definition lref (t : ctype) : ctype := match t with ct _ c v b => ct LRef c v b end.
Definition rref (t : ctype) : ctype := match t with ct NoRef c v b => ct RRef c v b | _ => t end.
Definition add_const (t : ctype) : ctype := match t with ct NoRef _ v b => ct NoRef true v b | _ => t end.
Definition const_lref (t : ctype) : ctype := lref (add_const t).
Definition const_rref (t : ctype) : ctype := rref (add_const t).

Definition plain (b : name) : ctype := ct NoRef false false b.
Definition option_of (t : ctype) : ctype := plain (OptionOf t).
Definition in_place_t : ctype := plain InPlace.

(** * What the compiler answers *)

Record lang : Type := mklang {
  cxx20 : bool;
  constructible : ctype -> list ctype -> bool;
  braces : ctype -> list ctype -> bool;        (* T{declval<Args>()...} is well-formed *)
  aggregate : ctype -> bool;
  convertible : ctype -> ctype -> bool;        (* from, to *)
  assignable : ctype -> ctype -> bool;
  ptr_convertible : ctype -> ctype -> bool     (* is_convertible<from*, to*> *)
}.

Section Checks.
Context (L : lang).

(** 1817-1840. *)
Definition initializable (t : ctype) (args : list ctype) : bool :=
  if cxx20 L then constructible L t args
  else if aggregate L t && negb (constructible L t args) && braces L t args then true
  else constructible L t args.

(** 2663-2671. *)
Definition constructible_from_option (t u : ctype) : bool :=
  let o := option_of u in
  constructible L t [lref o] || constructible L t [const_lref o] ||
  constructible L t [rref o] || constructible L t [const_rref o] ||
  convertible L (lref o) t || convertible L (const_lref o) t ||
  convertible L (rref o) t || convertible L (const_rref o) t.

(** 2673-2677. *)
Definition assignable_from_option (t u : ctype) : bool :=
  let o := option_of u in
  assignable L (lref t) (lref o) || assignable L (lref t) (const_lref o) ||
  assignable L (lref t) (rref o) || assignable L (lref t) (const_rref o).

(** The classes that the checks choose between, 2648-2693. *)
Inductive policy : Type :=
  | always_non_explicit
  | check_from_value_ctor (t u : ctype)
  | check_option_like_ctor (t u q : ctype)
  | always_assign
  | option_check_fail.

(** Member templates of these classes.  None: there is no such member, substitution fails. *)

(** is_explicit<ex>, 2650 and 2655-2657. *)
Definition is_explicit (p : policy) (ex : bool) : option bool :=
  match p with
  | always_non_explicit => Some (negb ex)
  | check_from_value_ctor t u => Some (negb (Bool.eqb (convertible L u t) ex) && initializable t [u])
  | _ => None
  end.

(** constructor_is_explicit<ex>, 2679-2683. *)
Definition constructor_is_explicit (p : policy) (ex : bool) : option bool :=
  match p with
  | check_option_like_ctor t u q =>
      Some (negb (Bool.eqb (convertible L q t) ex) &&
            (same (remove_cv t) (plain Bool) || negb (constructible_from_option t u)))
  | _ => None
  end.

(** assignment, 2685-2686 and 2689. *)
Definition assignment (p : policy) : option bool :=
  match p with
  | check_option_like_ctor t u _ => Some (negb (constructible_from_option t u) && negb (assignable_from_option t u))
  | always_assign => Some true
  | _ => None
  end.

(** enable_if: a declaration takes part when the member exists and the condition holds. *)
Definition enabled (c : option bool) : bool := match c with Some b => b | None => false end.

(** 2743-2748. *)
Definition same_reference_wrapper (t u : ctype) : bool :=
  match u with
  | ct NoRef false false (WrapperOf x) => same t x || same t (add_const x)
  | _ => false
  end.

(** The condition that the checks for references share (2755-2757, 2769-2771, 2777-2779, 2786-2788). *)
Definition binds (t u : ctype) : bool :=
  same_reference_wrapper (remove_reference t) (remove_reference u) ||
  (ptr_convertible L (remove_reference u) (remove_reference t) && Bool.eqb (is_lref t) (is_lref u)).

(** from_value_ctor, 2697-2701 and 2752-2758. *)
Definition value_ctor_policy (t u : ctype) : policy :=
  if is_reference t then
    if negb (same (remove_cvref u) in_place_t) && negb (is_option (remove_cvref u)) && binds t u
    then always_non_explicit else option_check_fail
  else
    if negb (same (remove_cvref u) (option_of t)) && negb (same (remove_cvref u) in_place_t) &&
       (negb (same (remove_cv t) (plain Bool)) || negb (is_option (remove_cvref u)))
    then check_from_value_ctor t u else option_check_fail.

(** The constructors from a value: explicit 2842-2845, implicit 2846-2849. *)
Definition value_ctor (ex : bool) (t u : ctype) : bool := enabled (is_explicit (value_ctor_policy t u) ex).

(** from_args_ctor, 2704-2710 and 2761, with the constructor at 2851-2855. *)
Definition args_ctor (t first second : ctype) (rest : list ctype) : bool :=
  if is_reference t then false
  else negb (same (remove_cvref first) (option_of t)) && negb (same (remove_cvref first) in_place_t) &&
       initializable t (first :: second :: rest).

(** from_in_place_args_ctor, 2713-2718 and 2764, with the constructors at 2857-2867. *)
Definition in_place_ctor (t tag : ctype) (args : list ctype) : bool :=
  if is_reference t then length args =? 1
  else same tag in_place_t && initializable t args.

(** from_option_like_ctor, 2721-2725 and 2767-2773.  [q]: const U& or U&&. *)
Definition option_ctor_policy (t u q : ctype) : policy :=
  if is_reference t then
    if negb (same u t) && binds t u then always_non_explicit else option_check_fail
  else
    if negb (same u t) && initializable t [q] then check_option_like_ctor t u q else option_check_fail.

(** The converting constructors: implicit 2874-2880 and 2888-2894, explicit 2881-2887 and 2895-2901. *)
Definition option_ctor (ex : bool) (t u q : ctype) : bool :=
  enabled (constructor_is_explicit (option_ctor_policy t u q) ex).

(** from_option_like_assign, 2727-2732 and 2775-2781, with the assignments at 2932 and 2955. *)
Definition option_assign_policy (t u q : ctype) : policy :=
  if is_reference t then
    if negb (same u t) && binds t u then always_assign else option_check_fail
  else
    if negb (same u t) && initializable t [q] && assignable L (lref t) q
    then check_option_like_ctor t u q else option_check_fail.
Definition option_assign (t u q : ctype) : bool := enabled (assignment (option_assign_policy t u q)).

(** from_value_assign, 2735-2739 and 2784-2789, with the assignment at 2913. *)
Definition value_assign (t u : ctype) : bool :=
  if is_reference t then negb (same (remove_cvref u) (option_of t)) && binds t u
  else negb (same (remove_cvref u) (option_of t)) && initializable t [u] && assignable L (lref t) u.
End Checks.
