(** Optional access to containers, associative containers, tuples and variants.

    Models: include/opt/option.hpp 3576-3600 (at, at_front, at_back), 3602-3625 (lookup), 3441-3480
    (get of an option of a tuple), 3482-3513 (get of a variant).

    A reference into a container is the position it refers to.  The container's own operations are
    undefined outside their bounds.  The result of the functions is an option of a reference:
    [None] is empty, [Some i] refers to position i. *)
From Coq Require Import NArith Bool List.
From Verif Require Import Outcome Lifetime Api Observe.
Import ListNotations.
Open Scope N_scope.
Open Scope res_scope.

Section Sequence.
Context {E : Type}.
Implicit Types c : list E.

Definition size c : N := N.of_nat (length c).

(** operator[], front() and back() of a sequence container. *)
Definition subscript c (i : N) : res N := if i <? size c then Ok i else UB.
Definition front c : res N := if size c =? 0 then UB else Ok 0.
Definition back c : res N := if size c =? 0 then UB else Ok (size c - 1).

(** 3577-3582. *)
Definition at_ c (i : N) : res (option N) :=
  if size c <=? i then Ok None else rmap Some (subscript c i).
(** 3585-3591. *)
Definition at_front c : res (option N) :=
  if size c =? 0 then Ok None else rmap Some (front c).
(** 3594-3600. *)
Definition at_back c : res (option N) :=
  if size c =? 0 then Ok None else rmap Some (back c).
End Sequence.

Section Associative.
Context {K E : Type}.

(** An iterator into the container is a position; [size c] is end().  Reading at end() is undefined. *)
Definition entry (c : list E) (it : N) : res N := if it <? size c then Ok it else UB.

(** 3608-3625.  [find] is the container's own.  The result refers to the mapped value
    (it->second) or to the element. *)
Definition lookup (find : list E -> K -> N) (c : list E) (k : K) : res (option N) :=
  let it := find c k in
  if it =? size c then Ok None else rmap Some (entry c it).
End Associative.

Section Tuple.
Context {W : Type} {C : cls W}.

(** 3441-3450, 3461-3468: get<I>(option).  [n] is the number of elements; an index out of range does
    not compile, given as [Undef].  The result refers to element I of the contained object. *)
Definition get_index (n i : nat) (c : cell C) : out (option nat) :=
  if Nat.ltb i n then
    check (o_has C c) (fun h => if h then operand c (fun _ => Ret (Some i)) else Ret None)
  else Undef.

(** The position of a type in a list of types, if it occurs exactly once; otherwise get<T> does not
    compile. *)
Fixpoint find_type (t : nat) (ts : list nat) : option nat :=
  match ts with
  | [] => None
  | u :: ts => if Nat.eqb t u then Some O else option_map S (find_type t ts)
  end.
Definition type_index (t : nat) (ts : list nat) : option nat :=
  if Nat.eqb (count_occ PeanoNat.Nat.eq_dec ts t) 1 then find_type t ts else None.

(** 3451-3458, 3470-3476: get<T>(option) for lvalues. *)
Definition get_type (t : nat) (ts : list nat) (c : cell C) : out (option nat) :=
  match type_index t ts with
  | Some i => get_index (length ts) i c
  | None => Undef
  end.
End Tuple.

(** A variant holds the alternative with some index, or none after an exception (valueless). *)
Section Variant.
Definition variant : Type := option nat.

(** std::get_if<I>(&v): null unless alternative I is active. *)
Definition get_if (i : nat) (v : variant) : bool := match v with Some j => Nat.eqb i j | None => false end.

(** 3483-3488, 3497-3504.  The result refers to the active alternative. *)
Definition variant_get (n i : nat) (v : variant) : out (option nat) :=
  if Nat.ltb i n then if get_if i v then Ret (Some i) else Ret None else Undef.
(** 3489-3494, 3506-3513. *)
Definition variant_get_type (t : nat) (ts : list nat) (v : variant) : out (option nat) :=
  match type_index t ts with
  | Some i => variant_get (length ts) i v
  | None => Undef
  end.
End Variant.
