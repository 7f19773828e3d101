(** An option of references that is made from another option, or assigned one.

    Models: option.hpp 2767-2782 (from_option_like_ctor, from_option_like_assign for references), 2873-2901 (constructors
    from const option<U>& and option<U>&&), 2932-2945, 2956-2963 (assignment of these for references), 3060-3095 (what get()
    is).  All for an option that contains something, of another type than the target.

    Simplifications: as in RefBind; the contained class of the other option is not derived from that option; an
    option<U> has no conversion that the program declares but those that make a new object of the other type. *)
From Coq Require Import List Bool Arith.
From Verif Require Import RefBind.
Import ListNotations.

(** option<U>: U an object type, X& or X&&. *)
Inductive held : Type := Object | Left | Right.
Record other := mkother {
  o_held : held;
  o_const : bool;              (* X is const *)
  o_type : oty;
  o_rvalue : bool;             (* the argument is an rvalue that is not const *)
  o_number : nat;              (* the type option<U> *)
  o_copies : bool }.           (* X can be copied *)

Section From.
Context (L : lang).

(** get() const& and get() && with the references of U collapsed. *)
Definition got (o : other) : expr :=
  match o_held o, o_rvalue o with
  | Object, false => mkexpr true true (o_type o)
  | Object, true => mkexpr false (o_const o) (o_type o)
  | Left, _ | Right, false => mkexpr true (o_const o) (o_type o)
  | Right, true => mkexpr false (o_const o) (o_type o)
  end.

Definition is_left (k : held) : bool := match k with Left => true | _ => false end.
(** is_same_v<U, T> *)
Definition same_type (T : refty) (o : other) : bool :=
  match o_held o, o_type o with
  | Left, Plain n => negb (r_rv T) && Bool.eqb (o_const o) (r_const T) && (n =? r_type T)
  | Right, Plain n => r_rv T && Bool.eqb (o_const o) (r_const T) && (n =? r_type T)
  | _, _ => false
  end.
(** 2767-2782: of U itself, not of what get() is. *)
Definition option_like (T : refty) (o : other) : bool :=
  let u := mkexpr (is_left (o_held o)) (o_const o) (o_type o) in
  negb (same_type T o) && (same_wrapper T u || same_kind L T u).

(** 2873-2901 *)
Definition from_option (T : refty) (o : other) : option target :=
  if option_like T o then ref_to_ptr L T (got o) else None.

(** static_cast<option<U>&&>(other.get()) makes a new option<U> of what is contained. *)
Definition new_option (o : other) : bool :=
  match o_held o with
  | Object => o_copies o
  | Left => negb (is_option L (o_type o))
  | Right => false
  end.
(** 2932-2945 and 2956-2963 *)
Definition assign_option (T : refty) (o : other) : option target :=
  if option_like T o then
    if o_rvalue o then ref_to_ptr L T (got o)
    else if new_option o then option_map (fun _ => Temporary) (ref_to_ptr L T (mkexpr false false (Plain (o_number o))))
    else None
  else None.
End From.
