(** Programs on variables of type option<T>, run with the functions of the header and with the code equivalents of the
    documentation.  An exception is caught after the call that threw it, and the program goes on. *)
From Coq Require Import List Bool.
From Verif Require Import Outcome Lifetime Api DocLang DocSnippets.
Import ListNotations.

Inductive op (I : Type) : Type :=
| Value (i : nat) (a : I)          (* x = value *)
| Emplace (i : nat) (a : I)
| TryEmplace (i : nat) (a : I)
| OrValue (i : nat) (a : I)        (* x |= value *)
| Clear (i : nat)                  (* x.reset() *)
| Copy (i j : nat)                 (* x = y *)
| Move (i j : nat)                 (* x = std::move(y) *)
| OrCopy (i j : nat)               (* x |= y *)
| OrMove (i j : nat)               (* x |= std::move(y) *)
| Swap (i j : nat).                (* x.swap(y) *)
Arguments Value {I} i a.
Arguments Emplace {I} i a.
Arguments TryEmplace {I} i a.
Arguments OrValue {I} i a.
Arguments Clear {I} i.
Arguments Copy {I} i j.
Arguments Move {I} i j.
Arguments OrCopy {I} i j.
Arguments OrMove {I} i j.
Arguments Swap {I} i j.

Fixpoint set_nth {X} (n : nat) (x : X) (l : list X) : list X :=
  match l, n with
  | [], _ => []
  | _ :: l, O => x :: l
  | y :: l, S n => y :: set_nth n x l
  end.

(** After a call: whether it threw, and the variables; the end of the program; undefined behaviour.  A call on a
    variable that does not exist, or with the same variable twice, is not made. *)
Inductive after (S : Type) : Type := Next (threw : bool) (s : S) | Ended | Broken.
Arguments Next {S} threw s.
Arguments Ended {S}.
Arguments Broken {S}.

Section Machine.
Context {X W : Type}.
Definition one (f : X -> W -> after (X * W)) (i : nat) (s : list X * W) : after (list X * W) :=
  match nth_error (fst s) i with
  | None => Next false s
  | Some x =>
      match f x (snd s) with
      | Next t (x, w) => Next t (set_nth i x (fst s), w)
      | Ended => Ended
      | Broken => Broken
      end
  end.
Definition two (f : X -> X -> W -> after (X * (X * W))) (i j : nat) (s : list X * W) : after (list X * W) :=
  if Nat.eqb i j then Next false s else
  match nth_error (fst s) i, nth_error (fst s) j with
  | Some x, Some y =>
      match f x y (snd s) with
      | Next t (x, (y, w)) => Next t (set_nth j y (set_nth i x (fst s)), w)
      | Ended => Ended
      | Broken => Broken
      end
  | _, _ => Next false s
  end.

(** The outcome of each call, and the last state if there is one. *)
Fixpoint run_all {O} (step : O -> list X * W -> after (list X * W)) (p : list O) (s : list X * W)
  : list bool * after (list X * W) :=
  match p with
  | [] => ([], Next false s)
  | o :: p =>
      match step o s with
      | Next t s => let (l, r) := run_all step p s in (t :: l, r)
      | Ended => ([], Ended)
      | Broken => ([], Broken)
      end
  end.
End Machine.

Section Model.
Context {W : Type} (C : cls W).
Definition of_out {S} (m : out S) : after S :=
  match m with
  | Ret s => Next false s
  | Exn s => Next true s
  | Abort => Ended
  | Undef => Broken
  end.
Definition with_source (f : cell C -> cell C -> W -> out (cell C * W)) (x y : cell C) (w : W) : after (cell C * (cell C * W)) :=
  match of_out (f y x w) with
  | Next t (x, w) => Next t (x, (y, w))
  | Ended => Ended
  | Broken => Broken
  end.
Definition model_step (o : op (init C)) : list (cell C) * W -> after (list (cell C) * W) :=
  match o with
  | Value i a => one (fun x w => of_out (o_asgn C (IVal a) x w)) i
  | Emplace i a => one (fun x w => of_out (o_emplace C (o_reset C) (ctor C a) x w)) i
  | TryEmplace i a => one (fun x w => of_out (o_try_emplace C a x w)) i
  | OrValue i a => one (fun x w => of_out (a_or_assign C (IVal a) x w)) i
  | Clear i => one (fun x w => of_out (o_reset C x w)) i
  | Copy i j => two (with_source (o_cassign C)) i j
  | Move i j => two (fun x y w => of_out (o_massign C x (y, w))) i j
  | OrCopy i j => two (with_source (a_or_assign_copy C)) i j
  | OrMove i j => two (fun x y w => of_out (a_or_assign_move C x (y, w))) i j
  | Swap i j => two (fun x y w => of_out (o_swap C x (y, w))) i j
  end.
End Model.

Section Documented.
Context {W : Type} (A : dcls W).
Definition of_step {S R} (m : step S R) : after S :=
  match m with
  | Got _ s => Next false s
  | Thrown s => Next true s
  | Stopped => Ended
  | Wrong => Broken
  end.
Definition doc_step (o : op (darg A)) : list (option (obj A)) * W -> after (list (option (obj A)) * W) :=
  match o with
  | Value i a => one (fun x w => of_step (exec (value_assignment A a) (x, w))) i
  | Emplace i a => one (fun x w => of_step (exec (emplace A a) (x, w))) i
  | TryEmplace i a => one (fun x w => of_step (exec (try_emplace A a) (x, w))) i
  | OrValue i a => one (fun x w => of_step (exec (or_assign_value A a) (x, w))) i
  | Clear i => one (fun x w => of_step (destroy_in A world1 here (x, w))) i
  | Copy i j => two (fun x y w => of_step (exec (copy_assignment A) (x, (y, w)))) i j
  | Move i j => two (fun x y w => of_step (exec (move_assignment A) (x, (y, w)))) i j
  | OrCopy i j => two (fun x y w => of_step (exec (or_assign A Lvalue) (x, (y, w)))) i j
  | OrMove i j => two (fun x y w => of_step (exec (or_assign A Rvalue) (x, (y, w)))) i j
  | Swap i j => two (fun x y w => of_step (exec (swap_member A) (x, (y, w)))) i j
  end.
End Documented.

(** The same program for both. *)
Inductive same_op {I J} (R : I -> J -> Prop) : op I -> op J -> Prop :=
| same_value i a b : R a b -> same_op R (Value i a) (Value i b)
| same_emplace i a b : R a b -> same_op R (Emplace i a) (Emplace i b)
| same_try i a b : R a b -> same_op R (TryEmplace i a) (TryEmplace i b)
| same_or_value i a b : R a b -> same_op R (OrValue i a) (OrValue i b)
| same_clear i : same_op R (Clear i) (Clear i)
| same_copy i j : same_op R (Copy i j) (Copy i j)
| same_move i j : same_op R (Move i j) (Move i j)
| same_or_copy i j : same_op R (OrCopy i j) (OrCopy i j)
| same_or_move i j : same_op R (OrMove i j) (OrMove i j)
| same_swap i j : same_op R (Swap i j) (Swap i j).

(** Related states, and related ends. *)
Definition related {X Y W} (R : X -> Y -> Prop) (s : list X * W) (t : list Y * W) : Prop :=
  Forall2 R (fst s) (fst t) /\ snd s = snd t.
Definition after_same {S T} (R : S -> T -> Prop) (a : after S) (b : after T) : Prop :=
  match a, b with
  | Next t s, Next u s' => t = u /\ R s s'
  | Ended, Ended | Broken, Broken => True
  | _, _ => False
  end.
