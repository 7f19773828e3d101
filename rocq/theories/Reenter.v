(** The functional members with callbacks that may use the option itself: reset it, assign to it, move from it, or
    call its members again, to any depth.

    Models: include/opt/option.hpp 2552-2588 (and_then, map, map_or, map_or_else), 2592 (or_else), 2609 (has_value_and),
    2617 (inspect), 2625 (filter), 3043 (take_if).  In Api.v a callback sees the contained object only; here it is
    a function of the whole option and the world.  What the function does after the callback returned is
    decided anew from the option's state, as in the code: filter calls get() again, take_if calls take(), the
    others do not look at the option again. *)
From Coq Require Import NArith Bool List.
From Verif Require Import Outcome Words Lifetime Api.
Import ListNotations.
Open Scope N_scope.

Section OneClass.
Context {W : Type} (C : cls W).

(** The argument get() of the callback, then the call. *)
Definition r_call {A} (f : cell C * W -> out A) (st : cell C * W) : out A :=
  check (o_has C (fst st)) (fun h => if h then if c_alive (fst st) then f st else Undef else Abort).

(** 2609. *)
Definition r_has_value_and (f : cell C * W -> out (bool * (cell C * W))) (st : cell C * W) : out (bool * (cell C * W)) :=
  check (o_has C (fst st)) (fun h => if h then r_call f st else Ret (false, st)).

(** 2617. *)
Definition r_inspect (f : cell C * W -> out (cell C * W)) (st : cell C * W) : out (cell C * W) :=
  check (o_has C (fst st)) (fun h => if h then r_call f st else Ret st).

(** 2625. *)
Definition r_filter (p : pass) (f : cell C * W -> out (bool * (cell C * W))) (d : cell C) (st : cell C * W)
  : out (cell C * (cell C * W)) :=
  check (o_has C (fst st)) (fun h =>
    if h then
      match r_call f st with
      | Ret (b, st') => if b then o_build C (with_get C (from_value C p)) d st' else o_none C d st'
      | Exn (_, st') => Exn (d, st')
      | Abort => Abort
      | Undef => Undef
      end
    else o_none C d st).

(** 3043. *)
Definition r_take_if (nrvo : bool) (f : cell C * W -> out (bool * (cell C * W))) (d : cell C) (st : cell C * W)
  : out (cell C * (cell C * W)) :=
  check (o_has C (fst st)) (fun h =>
    if h then
      match r_call f st with
      | Ret (b, st') => if b then o_take C nrvo d st' else o_none C d st'
      | Exn (_, st') => Exn (d, st')
      | Abort => Abort
      | Undef => Undef
      end
    else o_none C d st).

(** 2592. *)
Definition r_or_else (p : pass) (f : cell C -> cell C * W -> out (cell C * (cell C * W))) (d : cell C) (st : cell C * W)
  : out (cell C * (cell C * W)) :=
  check (o_has C (fst st)) (fun h => if h then from_option C p d st else f d st).

End OneClass.

Section TwoClasses.
Context {W : Type} (C D : cls W).

(** 2552. *)
Definition r_and_then (f : cell D -> cell C * W -> out (cell D * (cell C * W))) (d : cell D) (st : cell C * W)
  : out (cell D * (cell C * W)) :=
  check (o_has C (fst st)) (fun h => if h then r_call C (f d) st else o_none D d st).

(** 2563. *)
Definition r_map (f : raw D -> cell C * W -> out (raw D * (cell C * W))) (d : cell D) (st : cell C * W)
  : out (cell D * (cell C * W)) :=
  check (o_has C (fst st)) (fun h => if h then o_build D (fun r => r_call C (f r)) d st else o_none D d st).

(** 2572. *)
Definition r_map_or (i : init D) (f : raw D -> cell C * W -> out (raw D * (cell C * W))) (d : raw D) (st : cell C * W)
  : out (raw D * (cell C * W)) :=
  check (o_has C (fst st)) (fun h => if h then r_call C (f d) st else lift (ctor D i) d st).

(** 2580. *)
Definition r_map_or_else (g f : raw D -> cell C * W -> out (raw D * (cell C * W))) (d : raw D) (st : cell C * W)
  : out (raw D * (cell C * W)) :=
  check (o_has C (fst st)) (fun h => if h then r_call C (f d) st else g d st).

End TwoClasses.
