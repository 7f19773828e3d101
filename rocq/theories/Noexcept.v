(** Functions declared noexcept, and what happens when something inside them throws: std::terminate
    ([except.spec]).

    Models: include/opt/option.hpp 3253-3270 and 3402 (swap of an option<T> with an option<U>),
    2640-2647 (nothrow_swap), 3577-3600 (at, at_front, at_back), 3934-3969 (get_level and set_level of
    opt::sentinel), with operations that may throw. *)
From Coq Require Import NArith ZArith Bool List.
From Verif Require Import Outcome Words Lifetime Select.
Import ListNotations.
Open Scope N_scope.

(** A call of a function declared noexcept(b) whose body does [m]. *)
Definition declared {A} (b : bool) (m : out A) : out A := if b then nothrow m else m.

(** noexcept of swap for option<T> and option<U> (2640-2647): [f] and [g] are the traits of T and U,
    [ns] is is_nothrow_swappable_with_v<T, U>. *)
Definition nothrow_swap (f g : flags) (ns : bool) : bool := f_nmc f && f_nmc g && ns.

(** * swap(option<U>& other) with U other than T *)

(** What U and T know of each other: U's constructor from an rvalue of T, T's from an rvalue of U, and
    swap(T&, U&). *)
Record cross {W} (C D : cls W) : Type := mkcross {
  to_right : raw D -> raw C * W -> out (raw D * (raw C * W));
  to_left : raw C -> raw D * W -> out (raw C * (raw D * W));
  exchange : raw C -> raw D * W -> out (raw C * (raw D * W))
}.
Arguments mkcross {W C D} _ _ _.
Arguments to_right {W C D} _ _ _.
Arguments to_left {W C D} _ _ _.
Arguments exchange {W C D} _ _ _.

Section Mixed.
Context {W : Type}.

(** A constructor of D used on the contained object of an option<C>. *)
Definition from_other {C D : cls W} (f : raw D -> raw C * W -> out (raw D * (raw C * W)))
  (r : raw D) (sw : cell C * W) : out (raw D * (cell C * W)) :=
  let (s, w) := sw in
  if c_alive s then
    match f r (c_raw s, w) with
    | Ret (r', (sr, w')) => Ret (r', (mkcell sr (c_flag s) (c_alive s), w'))
    | Exn (r', (sr, w')) => Exn (r', (mkcell sr (c_flag s) (c_alive s), w'))
    | Abort => Abort
    | Undef => Undef
    end
  else Undef.

(** other.base::construct(static_cast<T&&>(get())); base::reset(): 3264-3265 and 3268-3269. *)
Definition hand_over {C D : cls W} (f : raw D -> raw C * W -> out (raw D * (raw C * W)))
  (to : cell D) (from : cell C) (w : W) : out (cell D * (cell C * W)) :=
  match o_construct D (from_other f) to (from, w) with
  | Ret (to', (from', w')) =>
      match nothrow (o_reset C from' w') with
      | Ret (from'', w'') => Ret (to', (from'', w''))
      | Exn (from'', w'') => Exn (to', (from'', w''))
      | Abort => Abort
      | Undef => Undef
      end
  | m => m
  end.

Definition turn {A B} (m : out (B * (A * W))) : out (A * (B * W)) :=
  match m with
  | Ret (b, (a, w)) => Ret (a, (b, w))
  | Exn (b, (a, w)) => Exn (a, (b, w))
  | Abort => Abort
  | Undef => Undef
  end.

(** 3253-3270. *)
Definition x_swap {C D : cls W} (X : cross C D) (a : cell C) (bw : cell D * W) : out (cell C * (cell D * W)) :=
  let (b, w) := bw in
  check (o_has C a) (fun ha => check (o_has D b) (fun hb =>
    if negb ha && negb hb then Ret (a, (b, w))
    else if ha && hb then
      if c_alive a && c_alive b then
        match exchange X (c_raw a) (c_raw b, w) with
        | Ret (ra, (rb, w')) => Ret (mkcell ra (c_flag a) true, (mkcell rb (c_flag b) true, w'))
        | Exn (ra, (rb, w')) => Exn (mkcell ra (c_flag a) true, (mkcell rb (c_flag b) true, w'))
        | Abort => Abort
        | Undef => Undef
        end
      else Undef
    else if ha then turn (hand_over (to_right X) b a w)
    else hand_over (to_left X) a b w)).

(** T against itself. *)
Definition same_cross (C : cls W) : cross C C := mkcross (mctor C) (mctor C) (swp C).
End Mixed.

(** * Containers whose operations may throw *)

(** size(), operator[], front(), back(), and the construction of option<type> from what they give: a
    reference is just stored, an object is moved in. *)
Record container (W E : Type) : Type := mkcontainer {
  k_size : W -> out (N * W);
  k_index : N -> W -> out (E * W);
  k_front : W -> out (E * W);
  k_back : W -> out (E * W);
  k_store : E -> W -> out (E * W)
}.
Arguments mkcontainer {W E} _ _ _ _ _.
Arguments k_size {W E} _ _.
Arguments k_index {W E} _ _ _.
Arguments k_front {W E} _ _.
Arguments k_back {W E} _ _.
Arguments k_store {W E} _ _ _.

Section Container.
Context {W E : Type} (k : container W E).

(** An exception leaves no result. *)
Definition after {A} (m : out (A * W)) (f : A -> W -> out (option E * W)) : out (option E * W) :=
  match m with
  | Ret (a, w) => f a w
  | Exn (_, w) => Exn (None, w)
  | Abort => Abort
  | Undef => Undef
  end.

Definition stored (m : out (E * W)) : out (option E * W) :=
  after m (fun e w => after (k_store k e w) (fun e w => Ret (Some e, w))).

(** The bodies of 3577-3582, 3585-3591, 3594-3600. *)
Definition at_body (i : N) (w : W) : out (option E * W) :=
  after (k_size k w) (fun n w => if n <=? i then Ret (None, w) else stored (k_index k i w)).
Definition front_body (w : W) : out (option E * W) :=
  after (k_size k w) (fun n w => if n =? 0 then Ret (None, w) else stored (k_front k w)).
Definition back_body (w : W) : out (option E * W) :=
  after (k_size k w) (fun n w => if n =? 0 then Ret (None, w) else stored (k_back k w)).

(** All three are noexcept without a condition. *)
Definition at_call (i : N) (w : W) := declared true (at_body i w).
Definition front_call (w : W) := declared true (front_body w).
Definition back_call (w : W) := declared true (back_body w).
End Container.

(** * opt::sentinel with an operator== and an operator= that may throw *)
Section Sentinel.
Context {A : Type}.

(** 3934-3943; [eq v] compares the stored value with the sentinel v.  Every step of the recursion is a
    call of a noexcept function. *)
Fixpoint scan (eq : A -> out bool) (i : N) (vals : list A) : out N :=
  match vals with
  | [] => Ret (umax_base - 1)
  | v :: vals =>
      nothrow
        match eq v with
        | Ret true => Ret i
        | Ret false => scan eq (i + 1) vals
        | Exn _ => Exn i
        | Abort => Abort
        | Undef => Undef
        end
  end.

(** 3944-3953; [set v] assigns the sentinel v. *)
Fixpoint put {R} (set : A -> out R) (i : N) (vals : list A) (l : N) : out R :=
  match vals with
  | [] => Abort
  | v :: vals => nothrow (if l =? i then set v else put set (i + 1) vals l)
  end.

(** has_value() of 2041 and 2099 on top of it. *)
Definition sentinel_has (eq : A -> out bool) (vals : list A) : out bool :=
  match scan eq 0 vals with
  | Ret l => Ret (negb (l =? 0))
  | Exn _ => Abort
  | Abort => Abort
  | Undef => Undef
  end.
End Sentinel.
