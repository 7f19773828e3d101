(** The code equivalents of docs/reference.md, transcribed.  DocSource has the text of the documentation; that the
    texts are the same is checked by computation (PropertiesDocs). *)
From Coq Require Import List Bool String.
From Verif Require Import DocLang.
Import ListNotations.
Open Scope string_scope.

(** What an option can be made from or assigned, besides another option of the same type: opt::none, a value or
    arguments, an option of another type, given by what it holds. *)
Inductive oarg (I : Type) : Type := ANone | AValue (i : I) | AOption (o : option I).
Arguments ANone {I}.
Arguments AValue {I} i.
Arguments AOption {I} o.

(** Simplified code does not say whether an rvalue is moved from; it is. *)
Inductive category := Lvalue | Rvalue.

Section Members.
Context {W : Type} (A : dcls W).
Notation X := (obj A).
Notation state2 Y := (option X * (option Y * W))%type.

Definition this {Y S} : var (option Y * S) Y := Var "" here.
Definition other {Y Z S} : var (option Z * (option Y * S)) Y := Var "other." (there here).
Definition world1 {Y} : part (option Y * W) W := there whole.
Definition world2 {Y Z} : part (option Y * (option Z * W)) W := there (there whole).

(** 53, 75 *)
Definition copy_constructor : stmt (state2 X) unit :=
  if_ (has_value A other) (do_ (construct A this (get_of A world2 other))).
Definition move_constructor : stmt (state2 X) unit :=
  if_ (has_value A other) (do_ (construct A this (moved_get A world2 other))).

(** 245, 278 *)
Definition copy_assignment : stmt (state2 X) unit :=
  if_else (has_value A other)
    (if_else (has_value A this)
      (do_ (assign A this (get_of A world2 other)))
      (do_ (construct A this (get_of A world2 other))))
    (do_ (reset A world2 this)).
Definition move_assignment : stmt (state2 X) unit :=
  if_else (has_value A other)
    (if_else (has_value A this)
      (do_ (assign A this (moved_get A world2 other)))
      (do_ (construct A this (moved_get A world2 other))))
    (do_ (reset A world2 this)).

(** 311, 432, 451 *)
Definition value_assignment (i : darg A) : stmt (option X * W) unit :=
  if_else (has_value A this)
    (do_ (assign A this (from_arg A world1 "std::forward<U>(value)" i)))
    (do_ (construct A this (from_arg A world1 "std::forward<U>(value)" i))).
Definition emplace (i : darg A) : stmt (option X * W) unit :=
  seq (do_ (reset A world1 this)) (do_ (construct A this (from_arg A world1 "std::forward<Args>(args)..." i))).
Definition try_emplace (i : darg A) : stmt (option X * W) unit :=
  if_ (not_ (has_value A this)) (do_ (construct A this (from_arg A world1 "std::forward<Args>(args)..." i))).

(** 1017 *)
Definition swap_objects : expr (state2 X) unit :=
  E "swap(get(), other.get())" (fun s =>
    match s with
    | (Some a, (Some b, w)) =>
        match d_swap A (a, (b, w)) with
        | Got _ (a', (b', w')) => Got tt (Some a', (Some b', w'))
        | Thrown (a', (b', w')) => Thrown (Some a', (Some b', w'))
        | Stopped => Stopped
        | Wrong => Wrong
        end
    | _ => Stopped
    end).
Definition swap_member : stmt (state2 X) unit :=
  seq (if_ (and_ (not_ (has_value A this)) (not_ (has_value A other))) return_void)
  (seq (if_ (and_ (has_value A this) (has_value A other)) (seq (do_ swap_objects) return_void))
  (seq (if_ (has_value A this)
         (seq (do_ (construct A other (moved_get A world2 this))) (seq (do_ (reset A world2 this)) return_void)))
  (seq (do_ (construct A this (moved_get A world2 other))) (do_ (reset A world2 other))))).

(** An option made by the copy or move constructor above from the option in a state. *)
Definition built (m : step (state2 X) (option unit)) : step (option X * W) (option X) :=
  match m with
  | Got _ (o, s) => Got o s
  | Thrown (_, s) => Thrown s
  | Stopped => Stopped
  | Wrong => Wrong
  end.
Definition new_option (c : category) (s : option X * W) : step (option X * W) (option X) :=
  built (exec (match c with Lvalue => copy_constructor | Rvalue => move_constructor end) (None, s)).

(** 520: *this, tmp.  [elided]: whether the compiler makes tmp the result. *)
Definition tmp {Y Z S} : var (option Z * (option Y * S)) Y := Var "tmp." (there here).
Definition this_world : part (state2 X) (option X * W) :=
  {| look := fun s => (fst s, snd (snd s)); put := fun x s => (fst x, (fst (snd s), snd x)) |}.
Definition declare_tmp : expr (state2 X) unit :=
  E "option tmp{std::move(*this)}" (fun s =>
    then_ (on this_world (new_option Rvalue) s) (fun o s => Got tt (put (there here) o s)) id).
Definition return_tmp (elided : bool) : expr (state2 X) (option X) :=
  E "tmp" (fun s =>
    if elided then Got (look (there here) s) (put (there here) None s)
    else
      match on (there whole) (new_option Rvalue) s with
      | Got o s => then_ (destroy_in A world2 (there here) s) (fun _ s => Got o s) id
      | Thrown s => then_ (destroy_in A world2 (there here) s) (fun _ s => Thrown s) id
      | Stopped => Stopped
      | Wrong => Wrong
      end).
Definition take (elided : bool) : stmt (state2 X) (option X) :=
  seq (do_ declare_tmp) (seq (do_ (reset A world2 this)) (return_ (return_tmp elided))).

(** The value a function returns; it must return one. *)
Definition returned {S R} (m : step S (option R)) : step S R :=
  match m with
  | Got (Some r) s => Got r s
  | Got None _ => Wrong
  | Thrown s => Thrown s
  | Stopped => Stopped
  | Wrong => Wrong
  end.

(** 555 *)
Definition take_if (elided : bool) (p : X * W -> step (X * W) bool) : stmt (state2 X) (option X) :=
  seq (if_ (and_ (has_value A this) (call A world2 "predicate" this p))
        (return_ (E "take()" (fun s => returned (exec (take elided) s)))))
      (return_ (constant "opt::none" None)).

(** 488, 599 *)
Definition has_value_and (p : X * W -> step (X * W) bool) : stmt (option X * W) bool :=
  seq (if_ (has_value A this) (return_ (call A world1 "predicate" this p))) (return_ (constant "false" false)).
Definition inspect (f : X * W -> step (X * W) unit) : stmt (option X * W) unit :=
  seq (if_ (has_value A this) (do_ (call A world1 "fn" this f))) (return_ (constant "*this" tt)).

(** 850 *)
Definition get_as (c : category) : source (option X * W) X :=
  match c with
  | Lvalue => get_of A world1 this
  | Rvalue => from_obj A world1 "get()" this (d_move A) (d_massign A)
  end.
Definition filter_member (c : category) (p : X * W -> step (X * W) bool) : stmt (option X * W) (option X) :=
  seq (if_ (and_ (has_value A this) (call A world1 "fn" this p)) (return_ (some (made A (get_as c)))))
      (return_ (constant "opt::none" None)).

(** 977; 1727, 1832 for the operators *)
Definition whole_option (t : string) (c : category) {S} (p : part S (option X * W)) : expr S (option X) :=
  E t (on p (new_option c)).
Definition or_else (c : category) (f : W -> step W (option X)) : stmt (option X * W) (option X) :=
  seq (if_ (has_value A this) (return_ (whole_option "*this" c whole))) (return_ (call0 world1 "fn()" f)).

Definition left {Y S} : var (option Y * S) Y := Var "left." here.
Definition right {Y Z S} : var (option Z * (option Y * S)) Y := Var "right." (there here).
Definition or_options (l r : category) : stmt (state2 X) (option X) :=
  seq (if_ (has_value A left) (return_ (whole_option "left" l this_world)))
      (return_ (whole_option "right" r (there whole))).
Definition xor_options (l r : category) : stmt (state2 X) (option X) :=
  seq (if_ (and_ (has_value A left) (not_ (has_value A right))) (return_ (whole_option "left" l this_world)))
  (seq (if_ (and_ (not_ (has_value A left)) (has_value A right)) (return_ (whole_option "right" r (there whole))))
  (return_ (constant "opt::none" None))).

(** 1769: left = right is the assignment above. *)
Definition assign_right (c : category) : expr (state2 X) unit :=
  E "left = right" (fun s => then_ (exec (match c with Lvalue => copy_assignment | Rvalue => move_assignment end) s)
    (fun _ s => Got tt s) id).
Definition or_assign (c : category) : stmt (state2 X) unit :=
  seq (if_ (not_ (has_value A left)) (do_ (assign_right c))) (return_ (constant "left" tt)).
Definition or_assign_value (i : darg A) : stmt (option X * W) unit :=
  seq (if_ (not_ (has_value A left)) (do_ (E "left = right" (fun s => then_ (exec (value_assignment i) s) (fun _ s => Got tt s) id))))
      (return_ (constant "left" tt)).
End Members.

Section TwoClasses.
Context {W : Type} (A B : dcls W).
Notation X := (obj A).
Notation Y := (obj B).

(** 167, 194, 342, 380: an option<U> with U of class A gives an option<T> with T of class B.  [make] and [asg] are
    the constructor and assignment of T from U. *)
Definition conv_source (c : category) (make : X * W -> step (X * W) Y) (asg : Y * (X * W) -> step (Y * (X * W)) unit)
  : source (option Y * (option X * W)) Y :=
  from_obj A world2 (match c with Lvalue => "other.get()" | Rvalue => "std::move(other.get())" end) other make asg.
Definition conv_constructor c make asg : stmt (option Y * (option X * W)) unit :=
  if_ (has_value A other) (do_ (construct B this (conv_source c make asg))).
Definition conv_assignment c make asg : stmt (option Y * (option X * W)) unit :=
  if_else (has_value A other)
    (if_else (has_value B this)
      (do_ (assign B this (conv_source c make asg)))
      (do_ (construct B this (conv_source c make asg))))
    (do_ (reset B world2 this)).

(** 898, 941, 753, 788 *)
Definition and_then (f : X * W -> step (X * W) (option Y)) : stmt (option X * W) (option Y) :=
  seq (if_ (has_value A this) (return_ (call A world1 "fn" this f))) (return_ (constant "opt::none" None)).
Definition map_member (f : X * W -> step (X * W) Y) : stmt (option X * W) (option Y) :=
  seq (if_ (has_value A this) (return_ (renamed "opt::option{fn(get())}" (some (call A world1 "fn" this f)))))
      (return_ (constant "opt::none" None)).
Definition map_or (i : darg B) (f : X * W -> step (X * W) Y) : stmt (option X * W) Y :=
  seq (if_ (has_value A this) (return_ (call A world1 "fn" this f))) (return_ (made B (from_arg B world1 "def" i))).
Definition map_or_else (g : W -> step W Y) (f : X * W -> step (X * W) Y) : stmt (option X * W) Y :=
  seq (if_ (has_value A this) (return_ (call A world1 "fn" this f))) (return_ (call0 world1 "def()" g)).

(** 1189: [conv] is To(x). *)
Definition option_cast (conv : X -> W -> step W Y) : stmt (option X * W) (option Y) :=
  return_ (E "value.map([](const From& x) { return To(x); })" (fun s => returned (exec (map_member (fun xw =>
    match conv (fst xw) (snd xw) with
    | Got y w => Got y (fst xw, w)
    | Thrown w => Thrown (fst xw, w)
    | Stopped => Stopped
    | Wrong => Wrong
    end)) s))).

(** 1790: the left operand has class A, the right one class B. *)
Definition and_options (r : category) : stmt (option X * (option Y * W)) (option Y) :=
  seq (if_ (has_value A left) (return_ (whole_option B "right" r (there whole)))) (return_ (constant "opt::none" None)).
End TwoClasses.

(** option<T> is a class again. *)
Section Nested.
Context {W : Type} (A : dcls W).
Notation X := (obj A).

(** An option<U> given by what it holds: U is the argument. *)
Definition of_args : dcls W := {|
  obj := darg A; darg := Empty_set;
  d_make := fun e => match e with end;
  d_copy := fun i w => Got i w;
  d_move := fun s => Got (fst s) s;
  d_assign := fun e => match e with end;
  d_cassign := fun _ s => Got tt s;
  d_massign := fun s => Got tt s;
  d_swap := fun s => Got tt s;
  d_destroy := fun _ w => Got tt w
|}.
Definition arg_make (s : darg A * W) : step (darg A * W) X :=
  match d_make A (fst s) (snd s) with
  | Got x w => Got x (fst s, w)
  | Thrown w => Thrown (fst s, w)
  | Stopped => Stopped
  | Wrong => Wrong
  end.
Definition arg_assign (s : X * (darg A * W)) : step (X * (darg A * W)) unit :=
  match d_assign A (fst (snd s)) (fst s, snd (snd s)) with
  | Got _ (x, w) => Got tt (x, (fst (snd s), w))
  | Thrown (x, w) => Thrown (x, (fst (snd s), w))
  | Stopped => Stopped
  | Wrong => Wrong
  end.

(** Dropping the source from the state again. *)
Definition only_this {Y R} (m : step (option X * (Y * W)) R) : step (option X * W) unit :=
  match m with
  | Got _ (o, (_, w)) => Got tt (o, w)
  | Thrown (o, (_, w)) => Thrown (o, w)
  | Stopped => Stopped
  | Wrong => Wrong
  end.
Definition only_world {Y R} (m : step (Y * W) R) : step W R :=
  match m with
  | Got r (_, w) => Got r w
  | Thrown (_, w) => Thrown w
  | Stopped => Stopped
  | Wrong => Wrong
  end.
Definition done {S R} (m : step S (option R)) : step S unit := then_ m (fun _ s => Got tt s) id.

(** std::swap of two options: auto tmp = std::move(a); a = std::move(b); b = std::move(tmp). *)
Definition std_swap (s : option X * (option X * W)) : step (option X * (option X * W)) unit :=
  let '(a, (b, w)) := s in
  let drop {R} (t : option X) (s : option X * (option X * W)) (r : step (option X * (option X * W)) R) :=
    match destroy_in A world1 here (t, snd (snd s)) with
    | Got _ (_, w) => match r with
                      | Got x _ => Got x (fst s, (fst (snd s), w))
                      | _ => Thrown (fst s, (fst (snd s), w))
                      end
    | Thrown _ => Stopped
    | Stopped => Stopped
    | Wrong => Wrong
    end in
  match new_option A Rvalue (a, w) with
  | Got t (a, w) =>
      match exec (move_assignment A) (a, (b, w)) with
      | Got _ (a, (b, w)) =>
          match exec (move_assignment A) (b, (t, w)) with
          | Got _ (b, (t, w)) => drop t (a, (b, w)) (Got tt (a, (b, w)))
          | Thrown (b, (t, w)) => drop t (a, (b, w)) (Thrown (a, (b, w)))
          | Stopped => Stopped
          | Wrong => Wrong
          end
      | Thrown (a, (b, w)) => drop t (a, (b, w)) (Thrown (a, (b, w)))
      | Stopped => Stopped
      | Wrong => Wrong
      end
  | Thrown (a, w) => Thrown (a, (b, w))
  | Stopped => Stopped
  | Wrong => Wrong
  end.

Definition doc_option : dcls W := {|
  obj := option X;
  darg := oarg (darg A);
  d_make := fun i w =>
    match i with
    | ANone => Got None w
    | AValue i => then_ (d_make A i w) (fun x w => Got (Some x) w) id
    | AOption o => only_world (match exec (conv_constructor of_args A Lvalue arg_make arg_assign) (None, (o, w)) with
                               | Got _ (r, s) => Got r s
                               | Thrown (_, s) => Thrown s
                               | Stopped => Stopped
                               | Wrong => Wrong
                               end)
    end;
  d_copy := fun o w => only_world (new_option A Lvalue (o, w));
  d_move := new_option A Rvalue;
  d_assign := fun i s =>
    match i with
    | ANone => destroy_in A world1 here s
    | AValue i => done (exec (value_assignment A i) s)
    | AOption o => only_this (exec (conv_assignment of_args A Lvalue arg_make arg_assign) (fst s, (o, snd s)))
    end;
  d_cassign := fun o s => only_this (exec (copy_assignment A) (fst s, (o, snd s)));
  d_massign := fun s => done (exec (move_assignment A) s);
  d_swap := std_swap;
  d_destroy := fun o w => only_world (destroy_in A world1 here (o, w))
|}.
End Nested.

Fixpoint doc_nest {W} (n : nat) (A : dcls W) : dcls W :=
  match n with
  | O => A
  | S n => doc_option (doc_nest n A)
  end.
