(** What deduction should give: docs/reference.md 2436-2455 (an option of a value, a copy of an option) and
    2286-2288 (make_option). *)
From Coq Require Import List Bool Arith.
From Verif Require Import Results.
Import ListNotations.

(** What an option made from e holds. *)
Definition held (e : qty) : qty :=
  match e with
  | Q _ _ (Opt t) => t
  | Q _ _ b => Q false Val b
  end.

Definition holds_option (e : qty) : Prop := exists t, q_base e = Opt t.

(** A type of objects without const that is not an option. *)
Definition ordinary (t : qty) : Prop := q_const t = false /\ q_kind t = Val /\ ~ holds_option t.

(** An option of an ordinary object wrapped n more times. *)
Fixpoint wrapped (n : nat) (t : qty) : qty :=
  match n with
  | O => t
  | S n => Q false Val (Opt (wrapped n t))
  end.

(** An option that is a prvalue is built in place; other rvalues are moved from, unless they are const. *)
Definition made_how (e : qty) : how :=
  match e with
  | Q _ Val (Opt _) => Built
  | Q _ LRef _ | Q true _ _ => Copied
  | Q false _ _ => Moved
  end.
