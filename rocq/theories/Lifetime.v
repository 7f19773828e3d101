(** Options of an arbitrary class T: object lifetimes, exceptions, and every storage base.

    Models: include/opt/option.hpp 1908-2107 (option_destruct_base), 2112-2129, 2135-2280
    (option_base), 2832-3048 and 3252-3269 (members of option).

    A class is a record of arbitrary functions on the contents of its storage.  The contents type
    [raw] and the world type [W] are parameters, so a class may keep heap data, count its calls or
    throw whenever it likes.  [c_alive] is ghost state: it says whether a T object is alive in the
    storage.  The code never reads it; the model uses it to turn every use of a dead object, every
    second destruction and every overwriting of a live object into [Undef]. *)
From Coq Require Import NArith Bool List.
From Verif Require Import Outcome Words.
Import ListNotations.
Open Scope N_scope.

(** Outcome of a member function of T or of option<T>: normal return or exception, both with the
    resulting state, a failed OPTION_VERIFY or std::terminate, or undefined behaviour. *)
Inductive out (A : Type) : Type :=
| Ret (a : A)
| Exn (a : A)
| Abort
| Undef.
Arguments Ret {A} a.
Arguments Exn {A} a.
Arguments Abort {A}.
Arguments Undef {A}.

(** A class T.  [raw] is the contents of sizeof(T) bytes of storage, whether or not a T is alive
    there; [init] is the type of constructor argument packs.  Functions that read another object
    of the class by rvalue reference take it as part of their world and return it changed. *)
Record cls (W : Type) : Type := {
  raw : Type;
  init : Type;
  td : bool;            (* trivially destructible *)
  tcc : bool;           (* trivially copy constructible *)
  tca : bool;           (* trivially copy assignable *)
  tmc : bool;           (* trivially move constructible *)
  tma : bool;           (* trivially move assignable *)
  scalar : bool;        (* std::is_scalar_v<T> *)
  ctor : init -> raw -> W -> out (raw * W);
  cctor : raw -> raw -> W -> out (raw * W);                   (* source, storage *)
  mctor : raw -> raw * W -> out (raw * (raw * W));            (* storage, (source, world) *)
  asgn : init -> raw -> W -> out (raw * W);
  cassign : raw -> raw -> W -> out (raw * W);                 (* source, target *)
  massign : raw -> raw * W -> out (raw * (raw * W));          (* target, (source, world) *)
  self_cassign : raw -> W -> out (raw * W);
  self_massign : raw -> W -> out (raw * W);
  swp : raw -> raw * W -> out (raw * (raw * W));
  self_swp : raw -> W -> out (raw * W);
  dtor : raw -> W -> out (raw * W);
  lmax : N;             (* option_traits<T>::max_level; 0 selects the flag bases *)
  lget : raw -> N;      (* option_traits<T>::get_level *)
  lset : N -> raw -> raw  (* option_traits<T>::set_level; the check level < max_level is left out *)
}.
Arguments raw {W} _.
Arguments init {W} _.
Arguments td {W} _.
Arguments tcc {W} _.
Arguments tca {W} _.
Arguments tmc {W} _.
Arguments tma {W} _.
Arguments scalar {W} _.
Arguments ctor {W} _.
Arguments cctor {W} _.
Arguments mctor {W} _.
Arguments asgn {W} _.
Arguments cassign {W} _.
Arguments massign {W} _.
Arguments self_cassign {W} _.
Arguments self_massign {W} _.
Arguments swp {W} _.
Arguments self_swp {W} _.
Arguments dtor {W} _.
Arguments lmax {W} _.
Arguments lget {W} _.
Arguments lset {W} _.

(** Storage of one option: the union member, the byte of has_value_flag (flag bases only; unused
    otherwise) and the ghost bit. *)
Record cell {W} (C : cls W) : Type := mkcell {
  c_raw : raw C;
  c_flag : N;
  c_alive : bool
}.
Arguments mkcell {W C} _ _ _.
Arguments c_raw {W C} _.
Arguments c_flag {W C} _.
Arguments c_alive {W C} _.

Definition check {A} (r : res bool) (k : bool -> out A) : out A :=
  match r with
  | Ok b => k b
  | Verify => Abort
  | UB => Undef
  end.

(** What a noexcept function makes of an exception. *)
Definition nothrow {A} (m : out A) : out A :=
  match m with
  | Exn _ => Abort
  | m => m
  end.

(** Arguments of the constructors and assignments of option<T> that do not take another option<T>:
    opt::none (2836, 2904), a value or in-place arguments (2842-2872, 2916), an option<U> (2876-2901,
    2934-2977).  An option<U> is given as what it holds: nothing, or the argument that its contained
    object makes for a constructor or assignment of T. *)
Inductive oinit (I : Type) : Type :=
| INone
| IVal (i : I)
| IConv (o : option I).
Arguments INone {I}.
Arguments IVal {I} i.
Arguments IConv {I} o.

Section OptionOfClass.
Context {W : Type} (C : cls W).

(** HasTraits of 1900. *)
Definition traits : bool := negb (lmax C =? 0).

(** 1938, 1986: reads the flag; a byte other than 0 and 1 is not a bool.  2041, 2099: asks the traits. *)
Definition o_has (c : cell C) : res bool :=
  if traits then Ok (negb (lget C (c_raw c) =? 0))
  else if c_flag c =? 0 then Ok false
  else if c_flag c =? 1 then Ok true
  else UB.

(** 1916, 1955: dummy, flag false.  2010, 2061: set_level(0) and VERIFY.  [c] is the storage before. *)
Definition o_default (c : cell C) : out (cell C) :=
  if traits then
    let c' := mkcell (lset C 0 (c_raw c)) (c_flag c) false in
    check (o_has c') (fun h => if h then Abort else Ret c')
  else Ret (mkcell (c_raw c) 0 false).

(** value.~T(), called in 1976, 1982, 2088, 2094. *)
Definition destroy_value {W'} (d : raw C -> W' -> out (raw C * W')) (c : cell C) (w : W')
  : out (cell C * W') :=
  if c_alive c then
    match nothrow (d (c_raw c) w) with
    | Ret (r, w') => Ret (mkcell r (c_flag c) false, w')
    | Exn (r, w') => Exn (mkcell r (c_flag c) false, w')
    | Abort => Abort
    | Undef => Undef
    end
  else Undef.

(** The part of reset() that records emptiness: 1936, 1983, 2038, 2095. *)
Definition o_empty (c : cell C) (w : W) : out (cell C * W) :=
  if traits then
    let c' := mkcell (lset C 0 (c_raw c)) (c_flag c) false in
    check (o_has c') (fun h => if h then Abort else Ret (c', w))
  else Ret (mkcell (c_raw c) 0 false, w).

(** reset: 1935, 1980, 2037, 2092. *)
Definition o_reset (c : cell C) (w : W) : out (cell C * W) :=
  if td C then o_empty c w
  else check (o_has c) (fun h =>
    if h then
      match destroy_value (dtor C) c w with
      | Ret (c', w') => o_empty c' w'
      | Exn p => Exn p
      | Abort => Abort
      | Undef => Undef
      end
    else Ret (c, w)).

(** Destructor: implicit and trivial for the bases 1909 and 2000; 1974, 2086. *)
Definition o_dtor (c : cell C) (w : W) : out (cell C * W) :=
  if td C then Ret (mkcell (c_raw c) (c_flag c) false, w)
  else check (o_has c) (fun h => if h then destroy_value (dtor C) c w else Ret (c, w)).

(** construct: 1942, 1990, 2045, 2103.  [mk] is the constructor of T that the arguments select.
    Constructing over a live object is a leak unless T is trivially destructible. *)
Definition o_construct {W'} (mk : raw C -> W' -> out (raw C * W')) (c : cell C) (w : W')
  : out (cell C * W') :=
  if c_alive c && negb (td C) then Undef else
  match mk (c_raw c) w with
  | Ret (r, w') =>
      if traits then
        let c' := mkcell r (c_flag c) true in
        check (o_has c') (fun h => if h then Ret (c', w') else Abort)
      else Ret (mkcell r 1 true, w')
  | Exn (r, w') => Exn (mkcell r (c_flag c) (c_alive c), w')
  | Abort => Abort
  | Undef => Undef
  end.

(** In-place constructors of the bases: 1920-1933, 1959-1972, 2016-2035, 2067-2085.  If T's
    constructor throws, the base was never constructed and the flag was not written. *)
Definition o_inplace (i : init C) (c : cell C) (w : W) : out (cell C * W) :=
  match ctor C i (c_raw c) w with
  | Ret (r, w') =>
      if traits then
        let c' := mkcell r (c_flag c) true in
        check (o_has c') (fun h => if h then Ret (c', w') else Abort)
      else Ret (mkcell r 1 true, w')
  | Exn (r, w') => Exn (mkcell r (c_flag c) false, w')
  | Abort => Abort
  | Undef => Undef
  end.

(** A constructor body that follows the default constructor of the base: if it throws, the
    completed base is destroyed before the exception leaves (2086 and 1974 run then).  [dt] is that
    destructor. *)
Definition with_base {W'} (dt : cell C -> W' -> out (cell C * W'))
  (body : cell C -> W' -> out (cell C * W')) (c : cell C) (w : W') : out (cell C * W') :=
  match o_default c with
  | Ret c0 =>
      match body c0 w with
      | Exn (c1, w1) =>
          match dt c1 w1 with
          | Ret p => Exn p
          | Exn p => Abort
          | Abort => Abort
          | Undef => Undef
          end
      | m => m
      end
  | Exn c0 => Exn (c0, w)
  | Abort => Abort
  | Undef => Undef
  end.

(** Carrying a second object along in the world of an operation. *)
Definition lift {A X} (f : A -> W -> out (A * W)) (a : A) (xw : X * W) : out (A * (X * W)) :=
  match f a (snd xw) with
  | Ret (a', w') => Ret (a', (fst xw, w'))
  | Exn (a', w') => Exn (a', (fst xw, w'))
  | Abort => Abort
  | Undef => Undef
  end.

(** Constructors of option<T> from opt::none (2836), a value or arguments (2842-2872), an option<U>
    (2876-2901). *)
Definition o_ctor (i : oinit (init C)) (c : cell C) (w : W) : out (cell C * W) :=
  match i with
  | INone =>
      match o_default c with
      | Ret c' => Ret (c', w)
      | Exn c' => Exn (c', w)
      | Abort => Abort
      | Undef => Undef
      end
  | IVal i => o_inplace i c w
  | IConv None => with_base o_dtor (fun c w => Ret (c, w)) c w
  | IConv (Some i) => with_base o_dtor (o_construct (ctor C i)) c w
  end.

(** Copy constructor: defaulted when T's is trivial (2167, 2181, 2220, 2238, 2270 and the primary
    template), else 2152, 2198, 2252 with option_construct_from_option (2125). *)
Definition o_cctor (src c : cell C) (w : W) : out (cell C * W) :=
  if tcc C then Ret (src, w)
  else with_base o_dtor (fun c w =>
    check (o_has src) (fun h =>
      if h then if c_alive src then o_construct (cctor C (c_raw src)) c w else Undef
      else Ret (c, w))) c w.

(** Using T's move constructor on the contained object of another option. *)
Definition from_cell (f : raw C -> raw C * W -> out (raw C * (raw C * W))) (r : raw C) (sw : cell C * W)
  : out (raw C * (cell C * W)) :=
  let (s, w) := sw in
  if c_alive s then
    match f r (c_raw s, w) with
    | Ret (r', (sr, w')) => Ret (r', (mkcell sr (c_flag s) (c_alive s), w'))
    | Exn (r', (sr, w')) => Exn (r', (mkcell sr (c_flag s) (c_alive s), w'))
    | Abort => Abort
    | Undef => Undef
    end
  else Undef.

(** Move constructor: defaulted when T's is trivial (2159, 2172, 2240, 2259, 2275 and the primary
    template), else 2183, 2205, 2225. *)
Definition o_mctor (c : cell C) (sw : cell C * W) : out (cell C * (cell C * W)) :=
  if tmc C then Ret (fst sw, sw)
  else with_base (lift o_dtor) (fun c sw =>
    check (o_has (fst sw)) (fun h =>
      if h then o_construct (from_cell (mctor C)) c sw else Ret (c, sw))) c sw.

(** option_assign_from_option with a const lvalue (2113), used by the copy assignments 2155, 2168,
    2201, 2221, 2255, 2271; defaulted when T's copy construction and assignment are trivial. *)
Definition o_cassign (src c : cell C) (w : W) : out (cell C * W) :=
  if tcc C && (tca C && td C) then Ret (src, w)
  else check (o_has src) (fun hs =>
    if hs then check (o_has c) (fun h =>
      if h then
        if c_alive src && c_alive c then
          match cassign C (c_raw src) (c_raw c) w with
          | Ret (r, w') => Ret (mkcell r (c_flag c) true, w')
          | Exn (r, w') => Exn (mkcell r (c_flag c) true, w')
          | Abort => Abort
          | Undef => Undef
          end
        else Undef
      else if c_alive src then o_construct (cctor C (c_raw src)) c w else Undef)
    else o_reset c w).

(** x = x with x an lvalue. *)
Definition o_self_cassign (c : cell C) (w : W) : out (cell C * W) :=
  if tcc C && (tca C && td C) then Ret (c, w)
  else check (o_has c) (fun h =>
    if h then
      if c_alive c then
        match self_cassign C (c_raw c) w with
        | Ret (r, w') => Ret (mkcell r (c_flag c) true, w')
        | Exn (r, w') => Exn (mkcell r (c_flag c) true, w')
        | Abort => Abort
        | Undef => Undef
        end
      else Undef
    else o_reset c w).

(** Move assignment: 2186, 2208, 2228, 2241, 2260, 2276; defaulted when T's move construction and
    assignment are trivial. *)
Definition o_massign (c : cell C) (sw : cell C * W) : out (cell C * (cell C * W)) :=
  if tmc C && (tma C && td C) then Ret (fst sw, sw)
  else check (o_has (fst sw)) (fun hs =>
    if hs then check (o_has c) (fun h =>
      if h then
        if c_alive c then
          match from_cell (massign C) (c_raw c) sw with
          | Ret (r, sw') => Ret (mkcell r (c_flag c) true, sw')
          | Exn (r, sw') => Exn (mkcell r (c_flag c) true, sw')
          | Abort => Abort
          | Undef => Undef
          end
        else Undef
      else o_construct (from_cell (mctor C)) c sw)
    else lift o_reset c sw).

(** x = std::move(x). *)
Definition o_self_massign (c : cell C) (w : W) : out (cell C * W) :=
  if tmc C && (tma C && td C) then Ret (c, w)
  else check (o_has c) (fun h =>
    if h then
      if c_alive c then
        match self_massign C (c_raw c) w with
        | Ret (r, w') => Ret (mkcell r (c_flag c) true, w')
        | Exn (r, w') => Exn (mkcell r (c_flag c) true, w')
        | Abort => Abort
        | Undef => Undef
        end
      else Undef
    else o_reset c w).

(** base::value = arg; OPTION_VERIFY(has_value()): 2923, 2944, 2967. *)
Definition o_assign_value {W'} (f : raw C -> W' -> out (raw C * W')) (c : cell C) (w : W')
  : out (cell C * W') :=
  if c_alive c then
    match f (c_raw c) w with
    | Ret (r, w') =>
        let c' := mkcell r (c_flag c) true in
        check (o_has c') (fun h => if h then Ret (c', w') else Abort)
    | Exn (r, w') => Exn (mkcell r (c_flag c) true, w')
    | Abort => Abort
    | Undef => Undef
    end
  else Undef.

(** operator=(none_t) 2904; operator=(U&&) 2916; operator=(option<U>) 2934, 2957. *)
Definition o_asgn (i : oinit (init C)) (c : cell C) (w : W) : out (cell C * W) :=
  match i with
  | INone | IConv None => o_reset c w
  | IVal i =>
      if scalar C then o_construct (ctor C i) c w
      else check (o_has c) (fun h =>
        if h then o_assign_value (asgn C i) c w else o_construct (ctor C i) c w)
  | IConv (Some i) =>
      check (o_has c) (fun h =>
        if h then o_assign_value (asgn C i) c w else o_construct (ctor C i) c w)
  end.

(** x = v with v an lvalue of type T that is not inside x: operator=(U&&) 2916 with U = T&. *)
Definition o_set_from (v : raw C) (c : cell C) (w : W) : out (cell C * W) :=
  if scalar C then o_construct (cctor C v) c w
  else check (o_has c) (fun h =>
    if h then o_assign_value (cassign C v) c w else o_construct (cctor C v) c w).

(** x = *x.  A scalar is read before the new object is created in the same place. *)
Definition o_set_self (c : cell C) (w : W) : out (cell C * W) :=
  if scalar C then o_construct (cctor C (c_raw c)) c w
  else check (o_has c) (fun h => if h then o_assign_value (self_cassign C) c w else Abort).

(** emplace 3002: reset, construct. *)
Definition o_emplace {W'} (rs : cell C -> W' -> out (cell C * W'))
  (mk : raw C -> W' -> out (raw C * W')) (c : cell C) (w : W') : out (cell C * W') :=
  match rs c w with
  | Ret (c', w') => o_construct mk c' w'
  | m => m
  end.

(** x.emplace( *x ): the argument refers to the object that reset has destroyed.  For a trivially
    destructible T the bytes are still there after reset() of the flag base; the traits base has
    overwritten them.  Reading a destroyed object is undefined in every case. *)
Definition o_emplace_self (c : cell C) (w : W) : out (cell C * W) :=
  match o_reset c w with
  | Ret (c', w') => if c_alive c' then o_construct (cctor C (c_raw c')) c' w' else Undef
  | m => m
  end.

(** try_emplace 3010. *)
Definition o_try_emplace (i : init C) (c : cell C) (w : W) : out (cell C * W) :=
  check (o_has c) (fun h => if h then Ret (c, w) else o_construct (ctor C i) c w).

(** take 3036 into the storage [c].  [nrvo]: whether the compiler elides the copy of tmp; otherwise
    the result is move-constructed from tmp and tmp is destroyed. *)
Definition o_take (nrvo : bool) (c : cell C) (sw : cell C * W) : out (cell C * (cell C * W)) :=
  match o_mctor c sw with
  | Ret (tmp, (src, w)) =>
      match nothrow (o_reset src w) with
      | Ret (src', w') =>
          if nrvo then Ret (tmp, (src', w'))
          else
            match o_mctor c (tmp, w') with
            | Ret (res, (tmp', w'')) =>
                match nothrow (o_dtor tmp' w'') with
                | Ret (_, w3) => Ret (res, (src', w3))
                | Exn _ | Abort => Abort
                | Undef => Undef
                end
            | Exn (res, (tmp', w'')) =>
                match nothrow (o_dtor tmp' w'') with
                | Ret (_, w3) => Exn (res, (src', w3))
                | Exn _ | Abort => Abort
                | Undef => Undef
                end
            | Abort => Abort
            | Undef => Undef
            end
      | Exn (src', w') => Exn (tmp, (src', w'))
      | Abort => Abort
      | Undef => Undef
      end
  | m => m
  end.

(** get() on an lvalue followed by the use [f] of the contained object (3060, 3069): the check, then [f]. *)
Definition o_with_value {W'} (f : raw C -> W' -> out (raw C * W')) (c : cell C) (w : W')
  : out (cell C * W') :=
  check (o_has c) (fun h =>
    if h then
      if c_alive c then
        match f (c_raw c) w with
        | Ret (r, w') => Ret (mkcell r (c_flag c) true, w')
        | Exn (r, w') => Exn (mkcell r (c_flag c) true, w')
        | Abort => Abort
        | Undef => Undef
        end
      else Undef
    else Abort).

(** take_if 3043.  The predicate may change the contained object and may throw. *)
Definition o_take_if (nrvo : bool) (p : raw C -> W -> out (raw C * (bool * W)))
  (c : cell C) (sw : cell C * W) : out (cell C * (cell C * W)) :=
  let (s, w) := sw in
  let none s w :=
    match o_default c with
    | Ret c' => Ret (c', (s, w))
    | Exn c' => Exn (c', (s, w))
    | Abort => Abort
    | Undef => Undef
    end in
  check (o_has s) (fun h =>
    if h then
      match o_with_value (fun r (bw : bool * W) => p r (snd bw)) s (false, w) with
      | Ret (s', (b, w')) => if b then o_take nrvo c (s', w') else none s' w'
      | Exn (s', (b, w')) => Exn (c, (s', w'))
      | Abort => Abort
      | Undef => Undef
      end
    else none s w).

(** swap 3253, with another option of the same type. *)
Definition o_swap (a : cell C) (bw : cell C * W) : out (cell C * (cell C * W)) :=
  let (b, w) := bw in
  check (o_has a) (fun ha => check (o_has b) (fun hb =>
    if negb ha && negb hb then Ret (a, (b, w))
    else if ha && hb then
      if c_alive a && c_alive b then
        match swp C (c_raw a) (c_raw b, w) with
        | Ret (ra, (rb, w')) => Ret (mkcell ra (c_flag a) true, (mkcell rb (c_flag b) true, w'))
        | Exn (ra, (rb, w')) => Exn (mkcell ra (c_flag a) true, (mkcell rb (c_flag b) true, w'))
        | Abort => Abort
        | Undef => Undef
        end
      else Undef
    else if ha then
      match o_construct (from_cell (mctor C)) b (a, w) with
      | Ret (b', (a', w')) =>
          match nothrow (o_reset a' w') with
          | Ret (a'', w'') => Ret (a'', (b', w''))
          | Exn (a'', w'') => Exn (a'', (b', w''))
          | Abort => Abort
          | Undef => Undef
          end
      | Exn (b', (a', w')) => Exn (a', (b', w'))
      | Abort => Abort
      | Undef => Undef
      end
    else
      match o_construct (from_cell (mctor C)) a (b, w) with
      | Ret (a', (b', w')) =>
          match nothrow (o_reset b' w') with
          | Ret (b'', w'') => Ret (a', (b'', w''))
          | Exn (b'', w'') => Exn (a', (b'', w''))
          | Abort => Abort
          | Undef => Undef
          end
      | Exn p => Exn p
      | Abort => Abort
      | Undef => Undef
      end)).

(** x.swap(x). *)
Definition o_self_swap (c : cell C) (w : W) : out (cell C * W) :=
  check (o_has c) (fun h =>
    if h then
      if c_alive c then
        match self_swp C (c_raw c) w with
        | Ret (r, w') => Ret (mkcell r (c_flag c) true, w')
        | Exn (r, w') => Exn (mkcell r (c_flag c) true, w')
        | Abort => Abort
        | Undef => Undef
        end
      else Undef
    else Ret (c, w)).

(** std::swap of two option<T>: tmp(move(a)), a = move(b), b = move(tmp).  The storage of tmp is taken
    to hold what a holds. *)
Definition o_std_swap (a : cell C) (bw : cell C * W) : out (cell C * (cell C * W)) :=
  let (b, w) := bw in
  let drop (tmp : cell C) w (k : W -> out (cell C * (cell C * W))) :=
    match nothrow (o_dtor tmp w) with
    | Ret (_, w') => k w'
    | Exn _ | Abort => Abort
    | Undef => Undef
    end in
  match o_mctor (mkcell (c_raw a) (c_flag a) false) (a, w) with
  | Ret (tmp, (a1, w1)) =>
      match o_massign a1 (b, w1) with
      | Ret (a2, (b1, w2)) =>
          match o_massign b1 (tmp, w2) with
          | Ret (b2, (tmp', w3)) => drop tmp' w3 (fun w4 => Ret (a2, (b2, w4)))
          | Exn (b2, (tmp', w3)) => drop tmp' w3 (fun w4 => Exn (a2, (b2, w4)))
          | Abort => Abort
          | Undef => Undef
          end
      | Exn (a2, (b1, w2)) => drop tmp w2 (fun w3 => Exn (a2, (b1, w3)))
      | Abort => Abort
      | Undef => Undef
      end
  | Exn (_, (a1, w1)) => Exn (a1, (b, w1))
  | Abort => Abort
  | Undef => Undef
  end.

(** std::swap(x, x). *)
Definition o_self_std_swap (c : cell C) (w : W) : out (cell C * W) :=
  let drop (tmp : cell C) w (k : W -> out (cell C * W)) :=
    match nothrow (o_dtor tmp w) with
    | Ret (_, w') => k w'
    | Exn _ | Abort => Abort
    | Undef => Undef
    end in
  match o_mctor (mkcell (c_raw c) (c_flag c) false) (c, w) with
  | Ret (tmp, (c1, w1)) =>
      match o_self_massign c1 w1 with
      | Ret (c2, w2) =>
          match o_massign c2 (tmp, w2) with
          | Ret (c3, (tmp', w3)) => drop tmp' w3 (fun w4 => Ret (c3, w4))
          | Exn (c3, (tmp', w3)) => drop tmp' w3 (fun w4 => Exn (c3, w4))
          | Abort => Abort
          | Undef => Undef
          end
      | Exn (c2, w2) => drop tmp w2 (fun w3 => Exn (c2, w3))
      | Abort => Abort
      | Undef => Undef
      end
  | Exn (_, (c1, w1)) => Exn (c1, w1)
  | Abort => Abort
  | Undef => Undef
  end.

(** option<T> is itself a class, so options nest.  Its traits are the strategies avaliable_option
    (3278: one level of T's is used up) and unavaliable_option (3293: the levels of bool in
    has_value_flag).  swap(a, b) of two option<T> is std::swap: the overload 3402 is enabled only if rvalues of T can be
    swapped (2637), and then the call is ambiguous (see Results). *)
Definition opt_cls : cls W := {|
  raw := cell C;
  init := oinit (init C);
  td := td C;
  tcc := tcc C;
  tca := tcc C && (tca C && td C);
  tmc := tmc C;
  tma := tmc C && (tma C && td C);
  scalar := false;
  ctor := o_ctor;
  cctor := o_cctor;
  mctor := o_mctor;
  asgn := o_asgn;
  cassign := o_cassign;
  massign := o_massign;
  self_cassign := o_self_cassign;
  self_massign := o_self_massign;
  swp := o_std_swap;
  self_swp := o_self_std_swap;
  dtor := o_dtor;
  lmax := if traits then lmax C - 1 else 254;
  lget := fun c =>
    if traits then wsub umax_base (lget C (c_raw c)) 1 else wsub 256 (c_flag c) 2;
  lset := fun l c =>
    if traits then mkcell (lset C (l + 1) (c_raw c)) (c_flag c) (c_alive c)
    else mkcell (c_raw c) ((l + 2) mod 256) (c_alive c)
|}.

End OptionOfClass.

(** option<option<...<T>...>>, n times. *)
Fixpoint nest_cls {W} (n : nat) (C : cls W) : cls W :=
  match n with
  | O => C
  | S n => opt_cls (nest_cls n C)
  end.
