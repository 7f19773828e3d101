(** What the functions ought to return, stated by the rights of the holder of an option: whether the
    value may be written and whether it may be moved from. *)
From Coq Require Import List Bool.
From Verif Require Import Results.
Import ListNotations.

(** The value may be written: T is not const and, if the option owns the value, neither is the option. *)
Definition may_write (s : self) (T : qty) : bool := negb (q_const T) && (is_ref T || negb (s_const s)).

(** The value is given as an rvalue: the option is one and does not merely refer to an lvalue. *)
Definition as_rvalue (s : self) (T : qty) : bool := s_rv s && negb (is_lref T).

Definition may_move (s : self) (T : qty) : bool := may_write s T && as_rvalue s T.

Definition access (s : self) (T : qty) : qty :=
  Q (negb (may_write s T)) (if as_rvalue s T then RRef else LRef) (q_base T).

(** The type of an object made from something of type T: without const and reference. *)
Definition bare (T : qty) : qty := Q false Val (q_base T).

Definition option_of (T : qty) : qty := Q false Val (Opt T).

(** How an object of the option's value type is made from the option. *)
Definition obtained (s : self) (T : qty) : how := if may_move s T then Moved else Copied.

(** What an option<T> or a tuple element of type T can be made from: a value always, an lvalue
    reference always, an rvalue reference from an rvalue only. *)
Definition regained (s : self) (T : qty) : option how :=
  match q_kind T with
  | Val => Some (obtained s T)
  | LRef => Some Bound
  | RRef => if s_rv s then Some Bound else None
  end.

(** T inside n + 1 options. *)
Fixpoint nested (n : nat) (T : qty) : ty :=
  match n with
  | O => Opt T
  | S m => Opt (Q false Val (nested m T))
  end.

(** T is neither an option nor hidden from flatten. *)
Definition plain (T : qty) : Prop := forall c k U, T <> Q c k (Opt U).

(** flatten as documented (reference.md 1563-1573): a reference to the value for an lvalue, a value
    otherwise; the const of the option is kept. *)
Definition flattened (s : self) (T : qty) : qty :=
  if s_rv s then T
  else match q_kind T with
       | RRef => T
       | _ => Q (negb (may_write s T)) LRef (q_base T)
       end.

(** operator*() && as documented (reference.md): std::remove_reference_t<T>&&. *)
Definition documented_deref (s : self) (T : qty) : qty :=
  let c := q_const T || negb (is_ref T) && s_const s in
  Q c (if s_rv s then RRef else LRef) (q_base T).

(** The element E of a tuple in an option may be moved from: a value with the tuple, the referent of an
    rvalue reference also out of a const tuple. *)
Definition element_moves (s : self) (T E : qty) : bool :=
  as_rvalue s T && negb (q_const E) && match q_kind E with Val => may_write s T | LRef => false | RRef => true end.

(** An expression that may be moved from. *)
Definition movable_expr (e : qty) : bool :=
  negb (q_const e) && match q_kind e with LRef => false | _ => true end.

(** No class swaps rvalues. *)
Definition ordinary (own : qty -> qty -> bool) : Prop :=
  forall e f, is_lref e = false \/ is_lref f = false -> own e f = false.

(** An element of a tuple is like the value of an option of its own. *)
Definition element_self (s : self) (T : qty) : self :=
  {| s_const := negb (may_write s T); s_rv := as_rvalue s T |}.

(** The result of a container's own access function, given as an rvalue if the container is one. *)
Definition result_kind (s : self) (a : qty) : qty :=
  match a with
  | Q c LRef b => Q c (if s_rv s then RRef else LRef) b
  | _ => a
  end.

(** When flatten compiles, and how its result comes about. *)
Definition flat_how (s : self) (T : qty) : option how :=
  if s_rv s then regained s T
  else match T with
       | Q c Val _ => if s_const s && negb c then None else Some Bound
       | Q _ LRef _ => Some Bound
       | Q _ RRef _ => None
       end.

(** The value type of flatten's result. *)
Definition flat_type (s : self) (T : qty) : qty := if s_rv s then T else match T with Q c Val b => Q c LRef b | _ => T end.
