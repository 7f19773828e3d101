(** Result types and value categories: what the functions of option.hpp return, what they pass to the
    functions they are given, and which of their instantiations compile.  Types are types of C++ with
    one level of const and at most one reference; volatile, arrays, functions and derived classes are
    left out.  An expression is described by the type decltype((e)) gives, with a prvalue for "no
    reference".  None: the program does not compile. *)
From Coq Require Import List Bool Arith.
Import ListNotations.

Inductive kind := Val | LRef | RRef.

Inductive qual (A : Type) := Q (c : bool) (k : kind) (b : A).
Arguments Q {A} c k b.

(** Obj n: a class or scalar, numbered.  Opt: opt::option.  Tup: std::tuple.  Var: std::variant.
    Ptr: a pointer.  Rw: std::reference_wrapper. *)
Inductive ty :=
| Obj (n : nat)
| Opt (t : qual ty)
| Tup (l : list (qual ty))
| Var (l : list (qual ty))
| Ptr (t : qual ty)
| Rw (t : qual ty).

Definition qty := qual ty.

Definition q_const (t : qty) := match t with Q c _ _ => c end.
Definition q_kind (t : qty) := match t with Q _ k _ => k end.
Definition q_base (t : qty) := match t with Q _ _ b => b end.

Definition is_ref (t : qty) := match q_kind t with Val => false | _ => true end.
Definition is_lref (t : qty) := match q_kind t with LRef => true | _ => false end.

(** Type equality. *)
Definition kind_eqb (a b : kind) : bool :=
  match a, b with Val, Val | LRef, LRef | RRef, RRef => true | _, _ => false end.

Fixpoint ty_eqb (a b : ty) {struct a} : bool :=
  let qeq (s t : qty) := match s, t with Q c k x, Q c' k' y => Bool.eqb c c' && kind_eqb k k' && ty_eqb x y end in
  let fix leq (l m : list qty) {struct l} : bool :=
    match l, m with
    | [], [] => true
    | Q c k x :: l', Q c' k' y :: m' => Bool.eqb c c' && kind_eqb k k' && ty_eqb x y && leq l' m'
    | _, _ => false
    end in
  match a, b with
  | Obj n, Obj m => Nat.eqb n m
  | Opt (Q c k x), Opt (Q c' k' y) => Bool.eqb c c' && kind_eqb k k' && ty_eqb x y
  | Ptr (Q c k x), Ptr (Q c' k' y) => Bool.eqb c c' && kind_eqb k k' && ty_eqb x y
  | Rw (Q c k x), Rw (Q c' k' y) => Bool.eqb c c' && kind_eqb k k' && ty_eqb x y
  | Tup l, Tup m => leq l m
  | Var l, Var m => leq l m
  | _, _ => false
  end.

(** const T, T&, T&&, and the type traits. *)
Definition add_const (t : qty) : qty := match t with Q _ Val b => Q true Val b | _ => t end.
Definition add_lref (t : qty) : qty := match t with Q c _ b => Q c LRef b end.
Definition add_rref (t : qty) : qty := match t with Q c Val b => Q c RRef b | _ => t end.
Definition remove_ref (t : qty) : qty := match t with Q c _ b => Q c Val b end.
Definition remove_cv (t : qty) : qty := match t with Q _ Val b => Q false Val b | _ => t end.
Definition remove_cvref (t : qty) : qty := match t with Q _ _ b => Q false Val b end.

(** decltype of a parameter's type: Self of a forwarding reference Self&&. *)
Definition deduced (e : qty) : qty := match e with Q c LRef b => Q c LRef b | Q c _ b => Q c Val b end.

(** How an object or reference is initialized. *)
Inductive how := Bound | Copied | Moved | Built.

(** Whether a reference of type t binds to the expression e of the same class ([dcl.init.ref]). *)
Definition binds (t e : qty) : bool :=
  ty_eqb (q_base t) (q_base e) && implb (q_const e) (q_const t) &&
  match q_kind t with
  | Val => false
  | LRef => is_lref e || q_const t
  | RRef => negb (is_lref e)
  end.

(** Initialization of a t from an e of the same class. *)
Definition inits (t e : qty) : option how :=
  match q_kind t with
  | Val =>
      if ty_eqb (q_base t) (q_base e) then
        Some (match q_kind e with
              | Val => Built
              | LRef => Copied
              | RRef => if q_const e then Copied else Moved
              end)
      else None
  | _ => if binds t e then Some Bound else None
  end.

(** static_cast<t>(e) within one class ([expr.static.cast]). *)
Definition casts (t e : qty) : option qty :=
  match q_kind t with
  | Val => if ty_eqb (q_base t) (q_base e) then Some t else None
  | LRef => if binds t e then Some t else None
  | RRef => if ty_eqb (q_base t) (q_base e) && implb (q_const e) (q_const t) then Some t else None
  end.

(** return e in a function declared to return the reference t. *)
Definition returns (t e : qty) : option qty := if binds t e then Some t else None.

Definition bind {A B} (o : option A) (f : A -> option B) : option B := match o with Some a => f a | None => None end.
Notation "'do' x <- a ; b" := (bind a (fun x => b)) (at level 200, x binder, a at level 100, b at level 200).

(** The option object a member function is called on: its constness and whether it is an rvalue. *)
Record self := { s_const : bool; s_rv : bool }.
Definition lv (s : self) : self := {| s_const := s_const s; s_rv := false |}.
Definition clv : self := {| s_const := true; s_rv := false |}.
Definition mlv : self := {| s_const := false; s_rv := false |}.
Definition mrv : self := {| s_const := false; s_rv := true |}.
Definition crv : self := {| s_const := true; s_rv := true |}.

Definition self_expr (s : self) (b : ty) : qty := Q (s_const s) (if s_rv s then RRef else LRef) b.
Definition self_of (e : qty) : self :=
  {| s_const := q_const e; s_rv := negb (is_lref e) |}.

(** base::value (1912, of type remove_const_t<T>) seen through this, or *base::value (2301). *)
Definition stored (s : self) (T : qty) : qty :=
  match T with
  | Q _ Val b => Q (s_const s) LRef b
  | Q c _ b => Q c LRef b
  end.

(** T&, const T&, T&& and const T&& of the four overloads. *)
Definition declared (s : self) (T : qty) : qty :=
  let T' := if s_const s then add_const T else T in
  if s_rv s then add_rref T' else add_lref T'.

(** get() (3059-3094). *)
Definition get_of (s : self) (T : qty) : option qty :=
  let t := declared s T in
  if s_rv s then do e <- casts t (stored s T); returns t e else returns t (stored s T).

(** get_unchecked() (3126-3157). *)
Definition unchecked_of (s : self) (T : qty) : option qty :=
  let t := declared s T in
  if s_rv s then do e <- casts t (stored s T); returns t e else returns t (stored s T).

(** operator*() (3105-3124): get() is called on *this, an lvalue. *)
Definition deref_of (s : self) (T : qty) : option qty :=
  let t := declared s T in
  do g <- get_of (lv s) T;
  if s_rv s then do e <- casts t g; returns t e else returns t g.

(** value_or_throw() (2602-2606, 3159-3162): auto&& keeps the category. *)
Definition throw_of (s : self) (T : qty) : option qty :=
  do e <- deref_of s T; returns (declared s T) e.

(** value() (3164-3167). *)
Definition value_of (s : self) (T : qty) : option qty :=
  let t := declared s T in
  do g <- throw_of (lv s) T;
  if s_rv s then do e <- casts t g; returns t e else returns t g.

(** operator->() (3095-3104) and ptr_or_null() (3213-3218): what the pointer points to. *)
Definition arrow_of (s : self) (T : qty) : option qty :=
  let p := remove_ref (add_lref (if s_const s then add_const T else T)) in
  do g <- get_of (lv s) T;
  if ty_eqb (q_base p) (q_base g) && implb (q_const g) (q_const p) then Some p else None.

(** The overloads const& and && of value_or, value_or_construct and or_else: which one is called. *)
Definition two (s : self) : self := if s_rv s && negb (s_const s) then mrv else clv.

(** value_or(U&&) (3169-3184): the value branch and, for a default of type u, the default branch. *)
Definition value_or_value (s : self) (T : qty) : option (qty * how) :=
  let R := remove_cv T in
  if s_rv (two s) then
    do g <- get_of mlv T; do e <- casts (add_rref R) g; do h <- inits R e; Some (R, h)
  else
    do g <- get_of clv T; do h <- inits R g; Some (R, h).

Definition value_or_default (T u : qty) : option (qty * how) :=
  let R := remove_cv T in
  do e <- casts R (add_rref u); do h <- inits R e; Some (R, h).

(** value_or_construct (2538-2548, 3186-3193), the value branch. *)
Definition construct_value (s : self) (T : qty) : option (qty * how) :=
  let R := remove_cv T in
  do g <- get_of (two s) T; do h <- inits R g; Some (R, h).

(** or_else (2591-2600, 3247-3250), the value branch: the option is copied or moved. *)
Definition or_else_value (s : self) (T : qty) : option (qty * how) :=
  let R := Q false Val (Opt T) in
  do h <- inits R (self_expr (two s) (Opt T)); Some (R, h).

(** The argument that the given function receives: has_value_and (2608-2614), inspect (2616-2622),
    map_or (2571-2577), map_or_else (2579-2589), and_then (2551-2560), map (2562-2569), filter and
    take_if (2624-2630, 3042-3048). *)
Inductive user := HasValueAnd | Inspect | MapOr | MapOrElse | AndThen | Map | Filter | TakeIf.

Definition passes (u : user) (s : self) (T : qty) : option qty :=
  match u with
  | HasValueAnd | Inspect | MapOr | MapOrElse => get_of s T
  | AndThen | Map => deref_of s T
  | Filter => get_of (lv s) T
  | TakeIf => if s_const s then None else get_of mlv T
  end.

(** filter (2624-2630): the option it returns. *)
Definition filter_value (s : self) (T : qty) : option (qty * how) :=
  do g <- get_of s T; do h <- inits T g; Some (Q false Val (Opt T), h).

(** map (2562-2569) with a function that returns R: option<remove_cv_t<R>>; ref_to_ptr (2286) for a
    reference. *)
Definition map_value (R : qty) : option (qty * how) :=
  let T := remove_cv R in
  if is_ref T then if binds (add_rref T) R then Some (Q false Val (Opt T), Bound) else None
  else Some (Q false Val (Opt T), Built).

(** zip_with (3356-3372) with a function that returns R: option<R>, initialized from the result. *)
Definition zip_with_value (R : qty) : option (qty * how) :=
  do h <- inits R (match R with Q c Val b => Q c RRef b | _ => R end); Some (Q false Val (Opt R), h).

(** A pointer to a data member of type M in class number n (629-646): e.*m. *)
Definition dot (e M : qty) : qty :=
  Q (q_const e || q_const M) (match q_kind e with LRef => LRef | _ => RRef end) (q_base M).

Definition invoke_data (n : nat) (M e : qty) : option qty :=
  let is_class t := ty_eqb (q_base t) (Obj n) in
  if is_class e then Some (dot e M) else
  match q_base e with
  | Rw p | Ptr p => if is_class p then Some (dot (add_lref p) M) else None
  | _ => None
  end.

(** A pointer to a member function of class n, const or not, that returns R (618-628, 638-642). *)
Definition invoke_member (n : nat) (fc : bool) (R e : qty) : option qty :=
  let call t := if ty_eqb (q_base t) (Obj n) && implb (q_const t) fc then Some R else None in
  if ty_eqb (q_base e) (Obj n) then call e else
  match q_base e with
  | Rw p | Ptr p => call p
  | _ => None
  end.

(** copy_reference (1849-1866). *)
Definition copy_reference (t u : qty) : qty :=
  match t, u with
  | Q c LRef b, Q _ LRef _ => Q c LRef b
  | Q c LRef b, _ => Q c RRef b
  | _, _ => t
  end.

(** copy_lvalue_reference (1868-1881). *)
Definition copy_lvalue_reference (t u : qty) : qty :=
  match u with
  | Q _ LRef _ => match t with Q c RRef b => Q c RRef b | _ => add_lref t end
  | _ => t
  end.

(** option<t>{static_cast<t>(a)}, the common end of get, at, at_front and at_back. *)
Definition wrap (t a : qty) : option (qty * how) :=
  do e <- casts t a;
  do h <- inits t (match e with Q c Val b => Q c RRef b | _ => e end);
  Some (Q false Val (Opt t), h).

(** at, at_front, at_back (3576-3600): a is what the container's own function returns. *)
Definition at_value (s : self) (cont : ty) (a : qty) : option (qty * how) :=
  wrap (copy_reference a (deduced (self_expr s cont))) a.

(** std::get<I> of a tuple ([tuple.elem]). *)
Definition tuple_get (e E : qty) : qty :=
  let E' := if q_const e then add_const E else E in
  if is_lref e then add_lref E' else add_rref E'.

Definition elements (b : ty) : list qty := match b with Tup l => l | _ => [] end.

(** get<I>(option<T>) (3441-3470). *)
Definition get_index (i : nat) (s : self) (T : qty) : option (qty * how) :=
  do g <- get_of s T;
  do E <- nth_error (elements (q_base g)) i;
  let a := tuple_get g E in
  wrap (copy_reference a (deduced (self_expr s (Opt T)))) a.

(** The place of the one element of type E. *)
Fixpoint find_type (E : qty) (l : list qty) : option nat :=
  match l with
  | [] => None
  | Q c k b :: l' =>
      if Bool.eqb (q_const E) c && kind_eqb (q_kind E) k && ty_eqb (q_base E) b then Some 0
      else do i <- find_type E l'; Some (S i)
  end.

(** get<E>(option<T>) (3471-3480): the rvalue overloads cast to option<E>&&. *)
Definition get_by_type (E : qty) (s : self) (T : qty) : option (qty * how) :=
  let by_type s T :=
    do g <- get_of s T;
    do i <- find_type E (elements (q_base g));
    do E' <- nth_error (elements (q_base g)) i;
    let a := tuple_get g E' in
    wrap (copy_reference a (deduced (self_expr s (Opt T)))) a in
  if s_rv s then
    do x <- casts (Q (s_const s) RRef (Opt E)) (self_expr s (Opt T)); by_type s E
  else by_type s T.

(** get<I>(variant) (3482-3513). *)
Definition variant_get (i : nat) (s : self) (l : list qty) : option (qty * how) :=
  do A <- nth_error l i;
  let p := add_lref (if s_const s then add_const A else A) in
  wrap (copy_reference p (deduced (self_expr s (Var l)))) p.

(** lookup (3609-3625): a is it->second or *it. *)
Definition lookup_value (a : qty) : option (qty * how) :=
  do h <- inits a (match a with Q c Val b => Q c RRef b | _ => a end); Some (Q false Val (Opt a), h).

(** flatten (3406-3414).  is_option_v (option_fwd.hpp 23-26) knows option<X> but neither const
    option<X> nor a reference. *)
Fixpoint flatten_of (s : self) (b : ty) {struct b} : option (qty * how) :=
  match b with
  | Opt (Q c k b') =>
      let T := Q c k b' in
      do g <- get_of s T;
      match c, k, b' with
      | false, Val, Opt _ => flatten_of (self_of g) b'
      | _, _, _ =>
          let R := copy_lvalue_reference T (deduced (self_expr s b)) in
          do h <- inits R g; Some (Q false Val (Opt R), h)
      end
  | _ => None
  end.

(** The elements of zip (3344-3354) and unzip (3416-3439). *)
Definition zip_element (s : self) (T : qty) : option (qty * how) :=
  do g <- get_of s T; do h <- inits T g; Some (T, h).

Fixpoint traverse {A B} (f : A -> option B) (l : list A) : option (list B) :=
  match l with
  | [] => Some []
  | a :: l' => do b <- f a; do r <- traverse f l'; Some (b :: r)
  end.

Definition zip_of (l : list (self * qty)) : option (qty * list how) :=
  do r <- traverse (fun p => zip_element (fst p) (snd p)) l;
  Some (Q false Val (Opt (Q false Val (Tup (map fst r)))), map snd r).

Definition unzip_element (g E : qty) : option (qty * how) :=
  do h <- inits E (tuple_get g E); Some (Q false Val (Opt E), h).

Definition unzip_of (s : self) (T : qty) : option (qty * list how) :=
  do g <- get_of s T;
  match q_base g with
  | Tup l =>
      do r <- traverse (unzip_element g) l;
      Some (Q false Val (Tup (map fst r)), map snd r)
  | _ => None
  end.

(** option_cast<To>(option<From>) (3374-3381): what To is made from. *)
Definition option_cast_source (s : self) (T : qty) : option qty :=
  do d <- deref_of (two s) T;
  if s_rv (two s) then
    do x <- returns (add_rref T) d; casts (add_rref T) (add_lref x)
  else
    do x <- returns (add_lref (add_const T)) d; Some (add_lref x).

(** from_nullable(T* ) (3383-3390). *)
Definition from_nullable_value (T : qty) : option (qty * how) :=
  let R := add_lref T in
  do h <- inits R (add_lref T); Some (Q false Val (Opt R), h).

(** make_option(T&&) (3328-3332). *)
Definition make_option_value (e : qty) : option (qty * how) :=
  let R := remove_cvref e in
  do h <- inits R (match e with Q c Val b => Q c RRef b | _ => e end); Some (Q false Val (Opt R), h).

(** Swapping ([swappable.requirements]): [mv b] tells whether objects of type b can be moved (both
    construction and assignment), [own e f] whether the class brings its own swap for these operands. *)
Section Swap.
Context (mv : ty -> bool) (own : qty -> qty -> bool).

(** std::swap(A&, A&). *)
Definition std_swap (e f : qty) : bool :=
  is_lref e && is_lref f && negb (q_const e) && negb (q_const f) && ty_eqb (q_base e) (q_base f) && mv (q_base e).

(** is_move_constructible. *)
Definition movable (T : qty) : bool := is_ref T || mv (q_base T).

(** The call swap(e, f) after using std::swap, and the overload 3402: enable_swap (2632-2639) asks
    is_swappable_with<T, U>, that is, about swap(declval<T>(), declval<U>()).  The overload and
    std::swap are both templates of which neither is more specialized, so if both accept the operands
    the call is ambiguous. *)
Fixpoint overload (b b' : ty) {struct b} : bool :=
  match b, b' with
  | Opt (Q c k x), Opt (Q c' k' y) =>
      let T := Q c k x in let U := Q c' k' y in
      let e := add_rref T in let f := add_rref U in
      let nested := is_lref e && is_lref f && negb (q_const e) && negb (q_const f) && overload x y in
      movable T && movable U &&
      (own e f || xorb (std_swap e f) nested)
  | _, _ => false
  end.

Definition opt_swap (e f : qty) : bool :=
  is_lref e && is_lref f && negb (q_const e) && negb (q_const f) && overload (q_base e) (q_base f).

(** A class's own swap is taken to be a better match than either. *)
Definition swaps (e f : qty) : bool := own e f || xorb (std_swap e f) (opt_swap e f).

(** Enabled for option<T> and option<U>. *)
Definition enable_swap (T U : qty) : bool := overload (Opt T) (Opt U).
End Swap.
