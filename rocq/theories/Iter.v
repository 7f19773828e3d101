(** Iterators over an option.

    Models: include/opt/option.hpp 2404-2506 (option_iterator), 2980-2993 (begin, end).

    A pointer is null, or points to the object numbered [o] ([IAt o 0]) or one past it ([IAt o 1]); a
    single object counts as an array of one element.  Anything else a pointer could be made to be
    is undefined behaviour.  Comparing or subtracting pointers to different objects is also given
    as [UB] (the standard says unspecified for the former). *)
From Coq Require Import NArith ZArith Bool List.
From Verif Require Import Outcome Lifetime Api Observe.
Import ListNotations.
Open Scope Z_scope.
Open Scope res_scope.

Inductive iptr : Type :=
| INull
| IAt (o : N) (i : Z).

Definition is_null (p : iptr) : bool := match p with INull => true | IAt _ _ => false end.

(** Built-in pointer arithmetic. *)
Definition p_add (p : iptr) (n : Z) : res iptr :=
  match p with
  | INull => if n =? 0 then Ok INull else UB
  | IAt o i => if (0 <=? i + n) && (i + n <=? 1) then Ok (IAt o (i + n)) else UB
  end.
Definition p_diff (p q : iptr) : res Z :=
  match p, q with
  | INull, INull => Ok 0
  | IAt o i, IAt o' j => if N.eqb o o' then Ok (i - j) else UB
  | _, _ => UB
  end.
Definition p_deref (p : iptr) : res N :=
  match p with
  | IAt o 0 => Ok o
  | _ => UB
  end.
Definition p_eqb (p q : iptr) : bool :=
  match p, q with
  | INull, INull => true
  | IAt o i, IAt o' j => N.eqb o o' && (i =? j)
  | _, _ => false
  end.
Definition p_cmp (f : Z -> Z -> bool) (p q : iptr) : res bool :=
  match p, q with
  | INull, INull => Ok (f 0 0)
  | IAt o i, IAt o' j => if N.eqb o o' then Ok (f i j) else UB
  | _, _ => UB
  end.

(** 2418: the default constructor; 2419. *)
Definition it_default : iptr := INull.
Definition it_make (p : iptr) : iptr := p.
(** 2421-2423: conversion to the const iterator. *)
Definition it_const (p : iptr) : iptr := p.

Definition checked {A} (p : iptr) (k : res A) : res A := verify (negb (is_null p)) k.

(** 2425-2432: operator* gives the object, operator-> the pointer. *)
Definition it_star (p : iptr) : res N := checked p (p_deref p).
Definition it_arrow (p : iptr) : res iptr := checked p (Ok p).
(** 2433-2454: ++it, it++, --it, it--; the post forms return (old, new). *)
Definition it_inc (p : iptr) : res iptr := checked p (p_add p 1).
Definition it_inc_post (p : iptr) : res (iptr * iptr) := checked p (let* q := p_add p 1 in Ok (p, q)).
Definition it_dec (p : iptr) : res iptr := checked p (p_add p (-1)).
Definition it_dec_post (p : iptr) : res (iptr * iptr) := checked p (let* q := p_add p (-1) in Ok (p, q)).
(** 2455-2476: += (and it + n, n + it), -= (and it - n). *)
Definition it_add (p : iptr) (n : Z) : res iptr := checked p (p_add p n).
Definition add_it (n : Z) (p : iptr) : res iptr := checked p (p_add p n).
Definition it_sub (p : iptr) (n : Z) : res iptr := checked p (p_add p (- n)).
(** 2477-2479: the difference is not checked. *)
Definition it_diff (p q : iptr) : res Z := p_diff p q.
(** 2480-2483. *)
Definition it_index (p : iptr) (n : Z) : res N := checked p (let* q := p_add p n in p_deref q).
(** 2484-2505: comparisons; <= and >= are not checked. *)
Definition it_eq (p q : iptr) : bool := p_eqb p q.
Definition it_ne (p q : iptr) : bool := negb (p_eqb p q).
Definition it_lt (p q : iptr) : res bool := checked p (checked q (p_cmp Z.ltb p q)).
Definition it_gt (p q : iptr) : res bool := checked p (checked q (p_cmp Z.gtb p q)).
Definition it_le (p q : iptr) : res bool := p_cmp Z.leb p q.
Definition it_ge (p q : iptr) : res bool := p_cmp Z.geb p q.

(** 2980-2993.  [o] is the address of the contained object (of the referred-to object for a
    reference option). *)
Definition begin_ {W} {C : cls W} (o : N) (c : cell C) : out iptr :=
  check (o_has C c) (fun h => if h then operand c (fun _ => Ret (IAt o 0)) else Ret INull).
Definition end_ {W} {C : cls W} (o : N) (c : cell C) : out iptr :=
  check (o_has C c) (fun h => if h then operand c (fun _ => Ret (IAt o 1)) else Ret INull).

(** for (; it != last; ++it) body( *it ); the result says which objects were visited, in order.
    [None]: not finished after [fuel] rounds. *)
Fixpoint loop {St} (body : N -> St -> res St) (fuel : nat) (it last : iptr) (s : St) : option (res St) :=
  match fuel with
  | O => None
  | S fuel =>
      if it_ne it last then
        match (let* o := it_star it in let* s' := body o s in let* it' := it_inc it in Ok (s', it')) with
        | Ok (s', it') => loop body fuel it' last s'
        | Verify => Some Verify
        | UB => Some UB
        end
      else Some (Ok s)
  end.

(** while (it != first) body( *--it ). *)
Fixpoint rloop {St} (body : N -> St -> res St) (fuel : nat) (it first : iptr) (s : St) : option (res St) :=
  match fuel with
  | O => None
  | S fuel =>
      if it_ne it first then
        match (let* it' := it_dec it in let* o := it_star it' in let* s' := body o s in Ok (s', it')) with
        | Ok (s', it') => rloop body fuel it' first s'
        | Verify => Some Verify
        | UB => Some UB
        end
      else Some (Ok s)
  end.
