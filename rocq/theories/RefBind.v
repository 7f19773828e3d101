(** What an option of references is bound to: the argument, a part of it, what it refers to, or a temporary.

    Models: option.hpp 2293-2299 (ref_to_ptr), 2306-2328 (the ways to make and rebind an option of
    references), 2742-2793 (option_checks_base for references), 2844-2851, 2857-2861 (constructors from a value and for
    std::in_place), 2913-2918 (assignment of a value), 3000-3015 (emplace, try_emplace); the reference of
    ref_to_ptr's parameter is bound as [dcl.init.ref] says.

    Simplifications: only const is a qualifier; a class derived from std::reference_wrapper, functions, arrays and
    volatile are left out; the referent is not itself a std::reference_wrapper; a class that has a conversion function to
    an lvalue of the type has no other conversion to it. *)
From Coq Require Import List Bool Arith.
Import ListNotations.

(** The type of an object: number n, or std::reference_wrapper of type number n, with whether that one is const. *)
Inductive oty : Type :=
| Plain (n : nat)
| Wrapper (c : bool) (n : nat).

(** What the program declares. *)
Record lang := mklang {
  l_base : nat -> nat -> option (list nat);    (* where the (public, single) base lies in the derived class *)
  l_gives : nat -> nat -> option bool;         (* a conversion function to an lvalue, with its const *)
  l_makes : oty -> nat -> bool;                (* an implicit conversion that makes a new object *)
  l_option : nat -> bool;                      (* is_option_v *)
  l_self : nat }.                              (* the option of references itself *)

Section Binding.
Context (L : lang).

Definition derived (n t : nat) : option (list nat) := if n =? t then Some [] else l_base L n t.

(** Where the pointer points to: into the argument, into what the argument refers to, to what its conversion
    function gives, or to a temporary that was made for the parameter of ref_to_ptr. *)
Inductive target : Type :=
| Part (p : list nat)
| Referent (p : list nat)
| Given
| Temporary.

(** The type that the option refers to: [rv] for &&, [tc] for const; and an argument: [lv] for an lvalue, [sc] for
    const. *)
Record refty := mkref { r_rv : bool; r_const : bool; r_type : nat }.
Record expr := mkexpr { e_lv : bool; e_const : bool; e_type : oty }.

(** [dcl.init.ref] 5, for a parameter of type T. *)
Definition bind (T : refty) (e : expr) : option target :=
  let made := if l_makes L (e_type e) (r_type T) then Some Temporary else None in
  match e_type e with
  | Plain n =>
      match derived n (r_type T) with
      | Some p =>
          if implb (e_const e) (r_const T) && (if r_rv T then negb (e_lv e) else e_lv e || r_const T)
          then Some (Part p) else None
      | None =>
          match l_gives L n (r_type T) with
          | Some c => if negb (r_rv T) && implb c (r_const T) then Some Given else None
          | None => if r_rv T || r_const T then made else None
          end
      end
  | Wrapper c n =>
      match derived n (r_type T) with
      | Some p => if negb (r_rv T) && implb c (r_const T) then Some (Referent p) else None
      | None => if r_rv T || r_const T then made else None
      end
  end.

(** ref_to_ptr 2293-2299: the template takes every reference_wrapper. *)
Definition ref_to_ptr (T : refty) (e : expr) : option target :=
  match e_type e with
  | Wrapper c n =>
      match derived n (r_type T) with
      | Some p => if implb c (r_const T) then Some (Referent p) else None
      | None => None
      end
  | Plain _ => bind T e
  end.

(** is_same_reference_wrapper_v 2742-2747: of the type without its reference, so a const wrapper is another type. *)
Definition same_wrapper (T : refty) (e : expr) : bool :=
  match e_type e with
  | Wrapper c n => negb (e_const e) && (n =? r_type T) && (Bool.eqb c (r_const T) || r_const T && negb c)
  | Plain _ => false
  end.
(** is_convertible_v of the pointers, and both or none are lvalue references: 2756-2757, 2787-2788. *)
Definition same_kind (T : refty) (e : expr) : bool :=
  match e_type e with
  | Plain n => match derived n (r_type T) with Some _ => implb (e_const e) (r_const T) | None => false end
  | Wrapper _ _ => false
  end && Bool.eqb (negb (r_rv T)) (e_lv e).

Definition is_option (s : oty) : bool := match s with Plain n => l_option L n | Wrapper _ _ => false end.
Definition is_self (s : oty) : bool := match s with Plain n => n =? l_self L | Wrapper _ _ => false end.

(** 2752-2758 *)
Definition from_value_ctor (T : refty) (e : expr) : bool :=
  negb (is_option (e_type e)) && (same_wrapper T e || same_kind T e).
(** 2783-2789 *)
Definition from_value_assign (T : refty) (e : expr) : bool :=
  negb (is_self (e_type e)) && (same_wrapper T e || same_kind T e).

(** The ways to bind: the outcome is what the pointer is set to, if the call compiles. *)
Inductive way : Type := Value | Assign | InPlace | Emplace | Invoke (prvalue : bool).
Definition bound (w : way) (T : refty) (e : expr) : option target :=
  match w with
  | Value => if from_value_ctor T e then ref_to_ptr T e else None
  | Assign => if from_value_assign T e then ref_to_ptr T e else None
  | InPlace | Emplace => ref_to_ptr T e
  | Invoke pr =>
      (* static_assert of 2314 *)
      if negb pr || match e_type e with Wrapper _ _ => negb (e_const e) | Plain _ => false end then ref_to_ptr T e else None
  end.
End Binding.
