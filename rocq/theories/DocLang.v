(** A language for the "code equivalents" of docs/reference.md.

    Models: docs/reference.md, the fragments after "Description in the (simplified) code equivalent".
    Every construct has a text, as it is printed in the documentation, and a meaning.  The meaning knows nothing
    of storage, flags, levels or trivial copies: an option either holds an object or does not.

    [step S A]: a value and the new state, an exception, the end of the program (a failed check or an exception
    out of a noexcept function), undefined behaviour. *)
From Coq Require Import List Bool String.
Import ListNotations.
Open Scope string_scope.
Open Scope list_scope.

Inductive step (S A : Type) : Type :=
| Got (a : A) (s : S)
| Thrown (s : S)
| Stopped
| Wrong.
Arguments Got {S A} a s.
Arguments Thrown {S A} s.
Arguments Stopped {S A}.
Arguments Wrong {S A}.

Definition then_ {S T A B} (m : step S A) (f : A -> S -> step T B) (g : S -> T) : step T B :=
  match m with
  | Got a s => f a s
  | Thrown s => Thrown (g s)
  | Stopped => Stopped
  | Wrong => Wrong
  end.

(** A class T as its users see it.  Functions that move from an object or assign to it have it in their state. *)
Record dcls (W : Type) : Type := {
  obj : Type;
  darg : Type;                                              (* what T can be made from *)
  d_make : darg -> W -> step W obj;
  d_copy : obj -> W -> step W obj;
  d_move : obj * W -> step (obj * W) obj;                   (* source *)
  d_assign : darg -> obj * W -> step (obj * W) unit;        (* target *)
  d_cassign : obj -> obj * W -> step (obj * W) unit;        (* source; target *)
  d_massign : obj * (obj * W) -> step (obj * (obj * W)) unit;   (* target, source *)
  d_swap : obj * (obj * W) -> step (obj * (obj * W)) unit;
  d_destroy : obj -> W -> step W unit
}.
Arguments obj {W} _.
Arguments darg {W} _.
Arguments d_make {W} _.
Arguments d_copy {W} _.
Arguments d_move {W} _.
Arguments d_assign {W} _.
Arguments d_cassign {W} _.
Arguments d_massign {W} _.
Arguments d_swap {W} _.
Arguments d_destroy {W} _.

(** A part of the state. *)
Record part (S X : Type) : Type := { look : S -> X; put : X -> S -> S }.
Arguments look {S X} _.
Arguments put {S X} _.

Definition here {X S} : part (X * S) X := {| look := fst; put := fun x s => (x, snd s) |}.
Definition there {X Y S} (p : part S X) : part (Y * S) X :=
  {| look := fun s => look p (snd s); put := fun x s => (fst s, put p x (snd s)) |}.
Definition whole {S} : part S S := {| look := fun s => s; put := fun x _ => x |}.

(** Running something on a part of the state. *)
Definition on {S X A} (p : part S X) (m : X -> step X A) (s : S) : step S A :=
  match m (look p s) with
  | Got a x => Got a (put p x s)
  | Thrown x => Thrown (put p x s)
  | Stopped => Stopped
  | Wrong => Wrong
  end.

(** Expressions and statements with their text. *)
Record expr (S A : Type) : Type := E { etext : string; eval : S -> step S A }.
Arguments E {S A} _ _.
Arguments etext {S A} _.
Arguments eval {S A} _.

(** A statement returns a value or goes on. *)
Record stmt (S R : Type) : Type := St { lines : list string; exec : S -> step S (option R) }.
Arguments St {S R} _ _.
Arguments lines {S R} _.
Arguments exec {S R} _.

Section Language.
Context {S R : Type}.

Definition do_ (e : expr S unit) : stmt S R :=
  St [etext e ++ ";"]%string (fun s => then_ (eval e s) (fun _ s => Got None s) id).
Definition return_ (e : expr S R) : stmt S R :=
  St ["return " ++ etext e ++ ";"]%string (fun s => then_ (eval e s) (fun r s => Got (Some r) s) id).
Definition seq (a b : stmt S R) : stmt S R :=
  St (lines a ++ lines b) (fun s => then_ (exec a s) (fun r s =>
    match r with
    | Some r => Got (Some r) s
    | None => exec b s
    end) id).
Definition indent (l : list string) : list string := map (fun t => "    " ++ t)%string l.
Definition if_ (c : expr S bool) (a : stmt S R) : stmt S R :=
  St (["if (" ++ etext c ++ ") {"]%string ++ indent (lines a) ++ ["}"])
     (fun s => then_ (eval c s) (fun b s => if b then exec a s else Got None s) id).
Definition if_else (c : expr S bool) (a b : stmt S R) : stmt S R :=
  St (["if (" ++ etext c ++ ") {"]%string ++ indent (lines a) ++ ["} else {"] ++ indent (lines b) ++ ["}"])
     (fun s => then_ (eval c s) (fun x s => if x then exec a s else exec b s) id).
Definition and_ (a b : expr S bool) : expr S bool :=
  E (etext a ++ " && " ++ etext b)%string (fun s => then_ (eval a s) (fun x s => if x then eval b s else Got false s) id).
Definition not_ (a : expr S bool) : expr S bool :=
  E ("!" ++ etext a)%string (fun s => then_ (eval a s) (fun x s => Got (negb x) s) id).
Definition constant (t : string) (r : R) : expr S R := E t (fun s => Got r s).
End Language.

Definition return_void {S} : stmt S unit := St ["return;"] (fun s => Got (Some tt) s).

(** A variable of type option<T>.  [v_name]: "" for *this, else the name with a dot. *)
Record var (S X : Type) : Type := Var { v_name : string; v_at : part S (option X) }.
Arguments Var {S X} _ _.
Arguments v_name {S X} _.
Arguments v_at {S X} _.

(** Where an object comes from: how it is made into a new T, and how it is assigned to a T. *)
Record source (S X : Type) : Type := Source {
  s_text : string;
  s_make : S -> step S X;
  s_assign : X -> S -> step (X * S) unit
}.
Arguments Source {S X} _ _ _.
Arguments s_text {S X} _.
Arguments s_make {S X} _.
Arguments s_assign {S X} _.

Section Options.
Context {W S : Type} (A : dcls W) (wat : part S W).
Notation X := (obj A).

Definition has_value (v : var S X) : expr S bool :=
  E (v_name v ++ "has_value()")%string (fun s => Got (match look (v_at v) s with Some _ => true | None => false end) s).

(** reset() is noexcept. *)
Definition destroy_in (v : part S (option X)) (s : S) : step S unit :=
  match look v s with
  | None => Got tt s
  | Some x =>
      match on wat (d_destroy A x) s with
      | Got _ s => Got tt (put v None s)
      | Thrown _ => Stopped
      | Stopped => Stopped
      | Wrong => Wrong
      end
  end.
Definition reset (v : var S X) : expr S unit := E (v_name v ++ "reset()")%string (destroy_in (v_at v)).

(** {construct}(...): a new object begins its life. *)
Definition construct (v : var S X) (from : source S X) : expr S unit :=
  E (v_name v ++ "{construct}(" ++ s_text from ++ ")")%string (fun s =>
    match look (v_at v) s with
    | Some _ => Wrong
    | None => then_ (s_make from s) (fun x s => Got tt (put (v_at v) (Some x) s)) id
    end).

(** get() = ...: get() of an empty option fails its check. *)
Definition assign (v : var S X) (from : source S X) : expr S unit :=
  E (v_name v ++ "get() = " ++ s_text from)%string (fun s =>
    match look (v_at v) s with
    | None => Stopped
    | Some x => then_ (s_assign from x s) (fun _ xs => Got tt (put (v_at v) (Some (fst xs)) (snd xs)))
                      (fun xs => put (v_at v) (Some (fst xs)) (snd xs))
    end).

(** Using the object in an option together with the world. *)
Definition with_obj {B} (v : part S (option X)) (f : X * W -> step (X * W) B) (s : S) : step S B :=
  match look v s with
  | None => Stopped
  | Some x =>
      match f (x, look wat s) with
      | Got b (x', w) => Got b (put v (Some x') (put wat w s))
      | Thrown (x', w) => Thrown (put v (Some x') (put wat w s))
      | Stopped => Stopped
      | Wrong => Wrong
      end
  end.

(** f(get()) *)
Definition call {B} (f : string) (v : var S X) (body : X * W -> step (X * W) B) : expr S B :=
  E (f ++ "(" ++ v_name v ++ "get())")%string (with_obj (v_at v) body).

(** The object of another option, used as const lvalue or as rvalue to make or to be assigned to a Y. *)
Definition from_obj {Y} (t : string) (v : var S X) (make : X * W -> step (X * W) Y)
  (asg : Y * (X * W) -> step (Y * (X * W)) unit) : source S Y :=
  Source t (with_obj (v_at v) make)
    (fun y s =>
      match look (v_at v) s with
      | None => Stopped
      | Some x =>
          match asg (y, (x, look wat s)) with
          | Got _ (y', (x', w)) => Got tt (y', put (v_at v) (Some x') (put wat w s))
          | Thrown (y', (x', w)) => Thrown (y', put (v_at v) (Some x') (put wat w s))
          | Stopped => Stopped
          | Wrong => Wrong
          end
      end).

(** Copies of an object in the state: the source is not changed. *)
Definition copying (xw : X * W) : step (X * W) X :=
  match d_copy A (fst xw) (snd xw) with
  | Got y w => Got y (fst xw, w)
  | Thrown w => Thrown (fst xw, w)
  | Stopped => Stopped
  | Wrong => Wrong
  end.
Definition copy_assigning (s : X * (X * W)) : step (X * (X * W)) unit :=
  match d_cassign A (fst (snd s)) (fst s, snd (snd s)) with
  | Got _ (y, w) => Got tt (y, (fst (snd s), w))
  | Thrown (y, w) => Thrown (y, (fst (snd s), w))
  | Stopped => Stopped
  | Wrong => Wrong
  end.

(** v.get() and std::move(v.get()) *)
Definition get_of (v : var S X) : source S X := from_obj (v_name v ++ "get()")%string v copying copy_assigning.
Definition moved_get (v : var S X) : source S X :=
  from_obj ("std::move(" ++ v_name v ++ "get())")%string v (d_move A) (d_massign A).

(** std::forward<U>(value) and std::forward<Args>(args)... *)
Definition from_arg (t : string) (i : darg A) : source S X :=
  Source t (on wat (d_make A i)) (fun x s =>
    match d_assign A i (x, look wat s) with
    | Got _ (x', w) => Got tt (x', put wat w s)
    | Thrown (x', w) => Thrown (x', put wat w s)
    | Stopped => Stopped
    | Wrong => Wrong
    end).

(** An expression of type T that initialises the T or option<T> that is returned. *)
Definition made (from : source S X) : expr S X := E (s_text from) (s_make from).
Definition some {Y} (e : expr S Y) : expr S (option Y) :=
  E (etext e) (fun s => then_ (eval e s) (fun x s => Got (Some x) s) id).
Definition renamed {Y} (t : string) (e : expr S Y) : expr S Y := E t (eval e).

(** The world alone: fn() and the like. *)
Definition call0 {B} (t : string) (body : W -> step W B) : expr S B := E t (on wat body).
End Options.
