(** The functional members of option<T> and the operators on options, with arbitrary callbacks.

    Models: include/opt/option.hpp 2536-2629 (impl::option helpers), 3060-3250 (members that call them),
    2876-2901 and 2934-2977 (conversions between
    options), 3373-3381 (option_cast), 3406-3414 (flatten), 3627-3732 (operators |, |=, &, ^).

    A callback is an arbitrary function of the contained object and the world.  It may change both,
    throw, fail a check or be undefined.  [C] is the class of the contained object, [D] that of the
    result.  Results are built directly in the storage given as first argument (guaranteed elision).
    The overloads for &, const&, && and const&& differ only in the value category handed to the
    callback, which is part of the callback here; where an overload copies or moves the option
    itself, a [pass] says which. *)
From Coq Require Import NArith Bool List.
From Verif Require Import Outcome Words Lifetime.
Import ListNotations.
Open Scope N_scope.

(** How an operand is passed: const option<T>& (copied from) or option<T>&& (moved from). *)
Inductive pass : Type := ByCopy | ByMove.

Section OneClass.
Context {W : Type} (C : cls W).

(** In-place construction of option<T> where [mk] builds the T: the in_place constructors (1919-1933,
    1958-1972, 2015-2035, 2066-2085) with either constructor arguments or construct_from_invoke_tag. *)
Definition o_build {W'} (mk : raw C -> W' -> out (raw C * W')) (c : cell C) (w : W')
  : out (cell C * W') :=
  match mk (c_raw c) w with
  | Ret (r, w') =>
      if traits C then
        let c' := mkcell r (c_flag c) true in
        check (o_has C c') (fun h => if h then Ret (c', w') else Abort)
      else Ret (mkcell r 1 true, w')
  | Exn (r, w') => Exn (mkcell r (c_flag c) false, w')
  | Abort => Abort
  | Undef => Undef
  end.

(** opt::none converted to option<T>, in the storage [c]. *)
Definition o_none {W'} (c : cell C) (w : W') : out (cell C * W') :=
  match o_default C c with
  | Ret c' => Ret (c', w)
  | Exn c' => Exn (c', w)
  | Abort => Abort
  | Undef => Undef
  end.

(** Access that only yields a reference.  3060-3123: get(), operator* and operator->. *)
Definition a_get (c : cell C) : out (raw C) :=
  check (o_has C c) (fun h => if h then if c_alive c then Ret (c_raw c) else Undef else Abort).

(** 2603, 3159-3167: value_or_throw() and value().  [Exn] is bad_access. *)
Definition a_value (c : cell C) : out (raw C) :=
  check (o_has C c) (fun h => if h then a_get c else Exn (c_raw c)).

(** 3126-3157: get_unchecked(). *)
Definition a_get_unchecked (c : cell C) : out (raw C) :=
  if c_alive c then Ret (c_raw c) else Undef.

(** 3213, 3216: ptr_or_null(); the pointed-to object is given as its contents. *)
Definition a_ptr_or_null (c : cell C) : out (option (raw C)) :=
  check (o_has C c) (fun h =>
    if h then match a_get c with
              | Ret r => Ret (Some r)
              | Exn _ => Undef
              | Abort => Abort
              | Undef => Undef
              end
    else Ret None).

(** Construction of one object from the contained object of an option: the argument is get(),
    checked, and used by [f].  The option is part of the world. *)
Definition with_get {A} (f : A -> raw C * W -> out (A * (raw C * W))) (a : A) (cw : cell C * W)
  : out (A * (cell C * W)) :=
  let (c, w) := cw in
  check (o_has C c) (fun h =>
    if h then
      if c_alive c then
        match f a (c_raw c, w) with
        | Ret (a', (r, w')) => Ret (a', (mkcell r (c_flag c) true, w'))
        | Exn (a', (r, w')) => Exn (a', (mkcell r (c_flag c) true, w'))
        | Abort => Abort
        | Undef => Undef
        end
      else Undef
    else Abort).

(** T's copy constructor from an object kept in the world, like [mctor]. *)
Definition copy_from (r : raw C) (sw : raw C * W) : out (raw C * (raw C * W)) :=
  lift (cctor C (fst sw)) r sw.

(** The constructor that initialising a T from a const lvalue or from an rvalue of T selects. *)
Definition from_value (p : pass) : raw C -> raw C * W -> out (raw C * (raw C * W)) :=
  match p with
  | ByCopy => copy_from
  | ByMove => mctor C
  end.

(** The constructor of option<T> that returning an operand selects. *)
Definition from_option (p : pass) (d : cell C) (cw : cell C * W) : out (cell C * (cell C * W)) :=
  match p with
  | ByCopy => lift (o_cctor C (fst cw)) d cw
  | ByMove => o_mctor C d cw
  end.

(** value_or 3170 (const&), 3178 (&&); value_or_construct 2539; operator| with a value 3627, 3631.
    [i] is the default, converted to T only when it is needed. *)
Definition a_value_or (p : pass) (i : init C) (r : raw C) (cw : cell C * W) : out (raw C * (cell C * W)) :=
  check (o_has C (fst cw)) (fun h =>
    if h then with_get (from_value p) r cw else lift (ctor C i) r cw).

(** or_else 2592. *)
Definition a_or_else (p : pass) (f : cell C -> W -> out (cell C * W)) (d : cell C) (cw : cell C * W)
  : out (cell C * (cell C * W)) :=
  check (o_has C (fst cw)) (fun h => if h then from_option p d cw else lift f d cw).

(** has_value_and 2609; the answer is in the world. *)
Definition a_has_value_and (f : raw C -> W -> out (raw C * (bool * W))) (c : cell C) (w : W)
  : out (cell C * (bool * W)) :=
  check (o_has C c) (fun h =>
    if h then o_with_value C (fun r (bw : bool * W) => f r (snd bw)) c (false, w)
    else Ret (c, (false, w))).

(** inspect 2617. *)
Definition a_inspect (f : raw C -> W -> out (raw C * W)) (c : cell C) (w : W) : out (cell C * W) :=
  check (o_has C c) (fun h => if h then o_with_value C f c w else Ret (c, w)).

(** filter 2625: the predicate sees the lvalue; then the value is copied or moved out. *)
Definition a_filter (p : pass) (f : raw C -> W -> out (raw C * (bool * W))) (d : cell C) (cw : cell C * W)
  : out (cell C * (cell C * W)) :=
  let (c, w) := cw in
  check (o_has C c) (fun h =>
    if h then
      match o_with_value C (fun r (bw : bool * W) => f r (snd bw)) c (false, w) with
      | Ret (c', (b, w')) =>
          if b then o_build (with_get (from_value p)) d (c', w') else o_none d (c', w')
      | Exn (c', (_, w')) => Exn (d, (c', w'))
      | Abort => Abort
      | Undef => Undef
      end
    else o_none d (c, w)).

(** operator| of two options: 3635, 3643, 3651, 3659.  Result: (result, (left, (right, world))). *)
Definition pick (l : bool) (p : pass) (d a b : cell C) (w : W) : out (cell C * (cell C * (cell C * W))) :=
  match from_option p d (if l then a else b, w) with
  | Ret (d', (s, w')) => Ret (d', if l then (s, (b, w')) else (a, (s, w')))
  | Exn (d', (s, w')) => Exn (d', if l then (s, (b, w')) else (a, (s, w')))
  | Abort => Abort
  | Undef => Undef
  end.

Definition a_or (pl pr : pass) (d a b : cell C) (w : W) : out (cell C * (cell C * (cell C * W))) :=
  check (o_has C a) (fun h => if h then pick true pl d a b w else pick false pr d a b w).

(** operator^: 3692, 3702, 3712, 3722. *)
Definition a_xor (pl pr : pass) (d a b : cell C) (w : W) : out (cell C * (cell C * (cell C * W))) :=
  check (o_has C a) (fun ha => check (o_has C b) (fun hb =>
    if ha && negb hb then pick true pl d a b w
    else if negb ha && hb then pick false pr d a b w
    else o_none d (a, (b, w)))).

(** operator|= 3669 with a value, arguments or an option<U> on the right, and with an option<T>. *)
Definition a_or_assign (i : oinit (init C)) (c : cell C) (w : W) : out (cell C * W) :=
  check (o_has C c) (fun h => if h then Ret (c, w) else o_asgn C i c w).
Definition a_or_assign_copy (s c : cell C) (w : W) : out (cell C * W) :=
  check (o_has C c) (fun h => if h then Ret (c, w) else o_cassign C s c w).
Definition a_or_assign_move (c : cell C) (sw : cell C * W) : out (cell C * (cell C * W)) :=
  check (o_has C c) (fun h => if h then Ret (c, sw) else o_massign C c sw).

End OneClass.

Section TwoClasses.
Context {W : Type} (C D : cls W).

(** and_then 2552.  [f] builds the returned option in the result storage. *)
Definition a_and_then (f : cell D -> raw C * W -> out (cell D * (raw C * W))) (d : cell D) (cw : cell C * W)
  : out (cell D * (cell C * W)) :=
  check (o_has C (fst cw)) (fun h => if h then with_get C f d cw else o_none D d cw).

(** map 2563.  [f] builds the new contained object. *)
Definition a_map (f : raw D -> raw C * W -> out (raw D * (raw C * W))) (d : cell D) (cw : cell C * W)
  : out (cell D * (cell C * W)) :=
  check (o_has C (fst cw)) (fun h => if h then o_build D (with_get C f) d cw else o_none D d cw).

(** map_or 2572 ([i]: the default value as a constructor argument of the result type). *)
Definition a_map_or (i : init D) (f : raw D -> raw C * W -> out (raw D * (raw C * W))) (d : raw D)
  (cw : cell C * W) : out (raw D * (cell C * W)) :=
  check (o_has C (fst cw)) (fun h => if h then with_get C f d cw else lift (ctor D i) d cw).

(** map_or_else 2580. *)
Definition a_map_or_else (g : raw D -> W -> out (raw D * W))
  (f : raw D -> raw C * W -> out (raw D * (raw C * W))) (d : raw D) (cw : cell C * W)
  : out (raw D * (cell C * W)) :=
  check (o_has C (fst cw)) (fun h => if h then with_get C f d cw else lift g d cw).

(** option_cast 3374, 3378: map with the conversion To(x); [conv] is the constructor argument that an
    object of C makes for D; [p] whether x is handed over as const lvalue or as rvalue is part of [conv]. *)
Definition a_cast (conv : raw C -> init D) : cell D -> cell C * W -> out (cell D * (cell C * W)) :=
  a_map (fun r sw => lift (ctor D (conv (fst sw))) r sw).

(** Converting constructors 2876-2901: the base is default constructed, then construct(other.get()).
    [mk] is the constructor of T selected by a const U& or a U&&. *)
Definition a_conv_ctor (mk : raw D -> raw C * W -> out (raw D * (raw C * W))) (d : cell D) (cw : cell C * W)
  : out (cell D * (cell C * W)) :=
  with_base D (lift (o_dtor D)) (fun d cw =>
    check (o_has C (fst cw)) (fun h => if h then o_construct D (with_get C mk) d cw else Ret (d, cw))) d cw.

(** Converting assignments 2934, 2957 for a non-reference T; [asg] is T's assignment from U. *)
Definition a_conv_assign (mk asg : raw D -> raw C * W -> out (raw D * (raw C * W))) (d : cell D)
  (cw : cell C * W) : out (cell D * (cell C * W)) :=
  check (o_has C (fst cw)) (fun hs =>
    if hs then check (o_has D d) (fun h =>
      if h then o_assign_value D (with_get C asg) d cw else o_construct D (with_get C mk) d cw)
    else lift (o_reset D) d cw).

(** operator& 3677, 3684; the left operand only answers has_value(). *)
Definition a_and (p : pass) (d : cell D) (a : cell C) (bw : cell D * W) : out (cell D * (cell D * W)) :=
  check (o_has C a) (fun h => if h then from_option D p d bw else o_none D d bw).

End TwoClasses.

(** flatten 3406 on an (n+1)-fold nested option, up to the access to the innermost object: the result
    is the object that opt::option<result_type>{...} is initialised from (a reference to it for an
    lvalue argument), or nothing. *)
Fixpoint a_flatten {W} (C : cls W) (n : nat) : raw (nest_cls (S n) C) -> out (option (raw C)) :=
  match n return raw (nest_cls (S n) C) -> out (option (raw C)) with
  | O => fun c : cell C => a_ptr_or_null C c
  | S n => fun c : cell (nest_cls (S n) C) =>
      check (o_has (nest_cls (S n) C) c) (fun h =>
        if h then match a_get (nest_cls (S n) C) c with
                  | Ret r => a_flatten C n r
                  | Exn _ => Undef
                  | Abort => Abort
                  | Undef => Undef
                  end
        else Ret None)
  end.
