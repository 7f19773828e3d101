(** Compile-time selection: which special members option<T> gets, and which strategy stores the
    emptiness of an option<option<T>>.

    Models: include/opt/option.hpp 2135-2329 (option_base), 2333-2399 (enable_copy_move), 1908-2107
    (the implicit members of option_destruct_base), 2793-2803, 2838-2840, 2910-2914 (option), and
    998-1004, 1895-1906, 1140-1143 (strategies).

    The C++ rules that are used are written out: matching and ordering of partial specialisations
    ([temp.spec.partial]), defaulted and deleted members of classes with bases and with anonymous
    unions ([class.copy.ctor], [class.copy.assign]), and that a defaulted move member that is defined
    as deleted is ignored by overload resolution ([over.match.funcs]). *)
From Coq Require Import NArith Bool List.
From Verif Require Import Words Types.
Import ListNotations.
Open Scope N_scope.
Open Scope bool_scope.

(** * Type traits of T *)
Record flags : Type := mkflags {
  f_ref : bool;  (* is_reference *)
  f_td : bool;   (* is_trivially_destructible *)
  f_cc : bool; f_ca : bool; f_mc : bool; f_ma : bool;       (* is_{copy,move}_{constructible,assignable} *)
  f_tcc : bool; f_tca : bool; f_tmc : bool; f_tma : bool;   (* is_trivially_... *)
  f_ncc : bool; f_nca : bool; f_nmc : bool; f_nma : bool    (* is_nothrow_... *)
}.

(** * Partial specialisations over bool parameters *)

(** An argument of a partial specialisation is a constant or a parameter. *)
Definition pattern : Type := list (option bool).

Fixpoint matches (p : pattern) (args : list bool) : bool :=
  match p, args with
  | [], [] => true
  | None :: p, _ :: args => matches p args
  | Some b :: p, a :: args => eqb a b && matches p args
  | _, _ => false
  end.

(** [q] matches whatever [p] matches. *)
Fixpoint generalises (q p : pattern) : bool :=
  match q, p with
  | [], [] => true
  | None :: q, _ :: p => generalises q p
  | Some b :: q, Some a :: p => eqb a b && generalises q p
  | _, _ => false
  end.

Inductive choice (B : Type) : Type :=
| Chosen (b : B)
| Ambiguous.
Arguments Chosen {B} b.
Arguments Ambiguous {B}.

(** The matching specialisation that is more specialised than all other matching ones; the primary
    template if none matches. *)
Definition select {B} (primary : B) (specs : list (pattern * B)) (args : list bool) : choice B :=
  match filter (fun s => matches (fst s) args) specs with
  | [] => Chosen primary
  | cands =>
      match filter (fun s => forallb (fun s' => generalises (fst s') (fst s)) cands) cands with
      | [s] => Chosen (snd s)
      | _ => Ambiguous
      end
  end.

(** * Special members *)
Inductive kind : Type := CopyCtor | CopyAssign | MoveCtor | MoveAssign.

(** How a member is declared in a class body. *)
Inductive decl : Type :=
| Default            (* = default, or not declared at all *)
| Delete             (* = delete *)
| User.              (* user-provided *)

(** What a member turns out to be. *)
Inductive member : Type :=
| Deleted
| Trivial
| Custom (noexc : bool).

Definition is_deleted (m : member) : bool := match m with Deleted => true | _ => false end.
Definition is_trivial (m : member) : bool := match m with Trivial => true | _ => false end.
Definition is_noexcept (m : member) : bool := match m with Custom b => b | Trivial => true | Deleted => false end.

Definition body : Type := kind -> decl.
Definition mkbody (cc ca mc ma : decl) : body :=
  fun k => match k with CopyCtor => cc | CopyAssign => ca | MoveCtor => mc | MoveAssign => ma end.

Definition T := Some true.
Definition F := Some false.
Definition any : option bool := None.

(** 2135-2145: the primary template. *)
Definition base_primary : body := mkbody Default Default Default Default.
(** 2147-2280 and 2284-2290. *)
Definition base_specs : list (pattern * body) := [
  ([F; any; T; T; F], mkbody User User Default Default);
  ([T; F; T; T; F], mkbody Default User Default Default);
  ([T; T; F; any; F], mkbody Default Default User User);
  ([F; any; F; any; F], mkbody User User User User);
  ([T; F; F; any; F], mkbody Default User User User);
  ([T; T; T; F; F], mkbody Default Default Default User);
  ([F; any; T; F; F], mkbody User User Default User);
  ([T; F; T; F; F], mkbody Default User Default User);
  ([any; any; any; any; T], mkbody Default Default Default Default)
].
(** 2136-2141: the default arguments. *)
Definition base_args (f : flags) : list bool :=
  [f_tcc f; f_tca f && f_td f; f_tmc f; f_tma f && f_td f; f_ref f].

(** 2333-2334. *)
Definition enable_primary : body := mkbody Default Default Default Default.
(** 2336-2399. *)
Definition enable_specs : list (pattern * body) := [
  ([T; F; T; T; F], mkbody Default Delete Default Default);
  ([F; any; T; T; F], mkbody Delete Delete Default Default);
  ([T; T; F; any; F], mkbody Default Default Delete Delete);
  ([F; any; F; any; F], mkbody Delete Delete Delete Delete);
  ([T; F; F; any; F], mkbody Default Delete Delete Delete);
  ([T; T; T; F; F], mkbody Default Default Default Delete);
  ([F; any; T; F; F], mkbody Delete Delete Default Delete);
  ([T; F; T; F; F], mkbody Default Delete Default Delete)
].
(** 2796-2803. *)
Definition enable_args (f : flags) : list bool := [f_cc f; f_ca f; f_mc f; f_ma f; f_ref f].

(** The trait of T that decides on a member of a union holding a T. *)
Definition trivially (f : flags) (k : kind) : bool :=
  match k with CopyCtor => f_tcc f | CopyAssign => f_tca f | MoveCtor => f_tmc f | MoveAssign => f_tma f end.
Definition copy_of (k : kind) : kind :=
  match k with CopyCtor | MoveCtor => CopyCtor | CopyAssign | MoveAssign => CopyAssign end.
Definition is_move (k : kind) : bool := match k with MoveCtor | MoveAssign => true | _ => false end.

(** The implicit member of option_destruct_base: it has an anonymous union with a T, so the member
    is deleted unless T's is trivial. *)
Definition union_member (f : flags) (k : kind) : member := if trivially f k then Trivial else Deleted.
(** Overload resolution finds the copy member if there is no move member: because of the user-declared
    destructor of 1974 and 2086, or because the defaulted move member is deleted. *)
Definition destruct_member (f : flags) (k : kind) : member :=
  if is_move k && (negb (f_td f) || is_deleted (union_member f k)) then union_member f (copy_of k)
  else union_member f k.

(** noexcept of the user-provided members: 2152, 2155, 2183, 2186, ... *)
Definition user_noexcept (f : flags) (k : kind) : bool :=
  match k with
  | CopyCtor => f_ncc f
  | CopyAssign => f_nca f && f_ncc f
  | MoveCtor => f_nmc f
  | MoveAssign => f_nma f && f_nmc f
  end.

(** A member of option_base.  The reference specialisation holds a pointer. *)
Definition base_member (f : flags) (b : body) (k : kind) : member :=
  match b k with
  | Delete => Deleted
  | User => Custom (user_noexcept f k)
  | Default => if f_ref f then Trivial else destruct_member f k
  end.
(** A member of enable_copy_move, which is empty. *)
Definition enable_member (b : body) (k : kind) : member :=
  match b k with
  | Delete => Deleted
  | _ => Trivial
  end.

(** A member that is defaulted in a class with two bases: option(const option&) = default, ... *)
Definition combine (a b : member) : member :=
  match a, b with
  | Deleted, _ | _, Deleted => Deleted
  | Trivial, Trivial => Trivial
  | _, _ => Custom (is_noexcept a && is_noexcept b)
  end.

(** What a defaulted member of option finds in a base: a move member that is defaulted and deleted is
    ignored there too. *)
Definition base_found (f : flags) (b : body) (k : kind) : member :=
  match b k with
  | Default => if is_move k && is_deleted (base_member f b k) then base_member f b (copy_of k) else base_member f b k
  | _ => base_member f b k
  end.

Definition option_member (f : flags) (k : kind) : choice member :=
  match select base_primary base_specs (base_args f), select enable_primary enable_specs (enable_args f) with
  | Chosen b, Chosen e => Chosen (combine (base_found f b k) (enable_member e k))
  | _, _ => Ambiguous
  end.

(** Overload resolution for an rvalue of type option<T>: option's own defaulted move member is ignored
    when it is deleted. *)
Definition option_used (f : flags) (k : kind) : choice member :=
  match option_member f k with
  | Chosen Deleted => if is_move k then option_member f (copy_of k) else Chosen Deleted
  | m => m
  end.

(** The traits of option<T> itself, so that options nest.  The destructor is the implicit one (1909,
    2000) or 1974, 2086; is_trivially_copy_constructible also asks for a trivial destructor. *)
Definition used (f : flags) (k : kind) : member :=
  match option_used f k with Chosen m => m | Ambiguous => Deleted end.
Definition option_flags (f : flags) : flags :=
  let td := f_ref f || f_td f in
  let m k := used f k in
  mkflags false td
    (negb (is_deleted (m CopyCtor))) (negb (is_deleted (m CopyAssign)))
    (negb (is_deleted (m MoveCtor))) (negb (is_deleted (m MoveAssign)))
    (is_trivial (m CopyCtor) && td) (is_trivial (m CopyAssign)) (is_trivial (m MoveCtor) && td) (is_trivial (m MoveAssign))
    (is_noexcept (m CopyCtor)) (is_noexcept (m CopyAssign)) (is_noexcept (m MoveCtor)) (is_noexcept (m MoveAssign)).
Fixpoint nest_flags (n : nat) (f : flags) : flags :=
  match n with O => f | S n => option_flags (nest_flags n f) end.

(** * The strategy for option<option<T>> *)

(** option_traits<const T>::max_level.  The specialisations of dispatch_specializations (994-1056) and
    of option_traits (1775, 3961, 4002, 4022, 4040, user-written) are for unqualified types, so const T
    is classified by detemine_option_strategy (1058-1138): pointers, floats, polymorphic classes,
    classes with PADDING and enums are found again; const std::pair, std::tuple and std::array have a
    std::tuple_size and become tuple-like, with const elements; the traits of member pointers (1464,
    1481) do not match const member pointers.  Simplification: classes with user-written traits and
    the classes of the standard library have none of these shapes. *)
Fixpoint const_max_level (t : ty) : N :=
  match t with
  | TOpaque _ _ | TBool | TRefWrap _ | TStringView _ _ | TUniquePtr _ | TMemPtr32 | TMemPtr64 _ | TString _ _
  | TVector _ | TSentTraits _ _ | TSentinel _ _ | TComplex _ | TMember _ _ _ _ | TEnforce _ | TOption _ | TOptRef _
  | TCustom _ _ _ _ _ _ => 0
  | TPtr64 | TPtr32 | TFloat64 _ | TFloat32 _ | TPoly _ _ _ | TPadding _ _ _ _ | TEnumRefl _ _ | TEnumSent _ _
  | TEnumStart _ _ | TEnumStartEnd _ _ _ => max_level t
  | TPair _ t1 _ t2 _ _ => find_max_level [const_max_level t1; const_max_level t2]
  | TTuple fs _ _ => find_max_level (map (fun f => const_max_level (snd f)) fs)
  | TArray n t => find_max_level (repeat (const_max_level t) n)
  end.

(** option_traits<T>::max_level for T = t or const t. *)
Definition cv_max_level (const : bool) (t : ty) : N := if const then const_max_level t else max_level t.

Inductive strategy : Type := InValue | InFlag.

(** 998-1004: avaliable_option or unavaliable_option, for option<option<T>>. *)
Definition outer_strategy (const : bool) (t : ty) : strategy :=
  if 1 <=? cv_max_level const t then InValue else InFlag.
(** 1900 with remove_cv_t: where the inner option<T> keeps its own state. *)
Definition inner_has_flag (t : ty) : bool := negb (0 <? max_level t).

(** The outer option finds what its strategy reads (3286, 3299). *)
Definition fits (const : bool) (t : ty) : bool :=
  match outer_strategy const t with
  | InValue => negb (inner_has_flag t)
  | InFlag => inner_has_flag t
  end.

(** Whether option<option<T>> compiles: [fits], and InValue calls option_traits<T>::set_level, which
    writes through a T* and so cannot be compiled for a const T. *)
Definition compiles (const : bool) (t : ty) : bool :=
  fits const t && match outer_strategy const t with InValue => negb const | InFlag => true end.
