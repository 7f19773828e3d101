(** Where the results of the functions of option.hpp point, and which of their parameters carry
    OPTION_LIFETIMEBOUND.

    Memory is a list of objects: first the variables of a program, then the temporaries of the full
    expression that runs.  A place is an object or a part of one.  Left out: how much room objects take,
    const, and what a value is, apart from the references in it.  A conversion between two classes copies
    the references its operand holds. *)
From Coq Require Import List Bool Arith.
Import ListNotations.

(** An object, and the steps to a part of it. *)
Definition place : Type := nat * list nat.

Inductive obj : Type :=
| Atom                        (* a number: no reference in it; also a null pointer *)
| Link (p : place)            (* a reference, a pointer that is not null, an iterator *)
| Pack (l : list obj)         (* a class, tuple, pair, array or container that owns its elements *)
| Alt (i : nat) (o : obj)     (* a variant that holds its alternative i *)
| OptVal (v : option obj)     (* option<T>, T no reference: the value is a part of it (1912) *)
| OptRef (v : option place).  (* option<T&>, option<T&&>: a pointer (2301) *)

Definition memory : Type := list obj.

(** Part number i. *)
Definition part (o : obj) (i : nat) : option obj :=
  match o, i with
  | Pack l, _ => nth_error l i
  | Alt _ a, 0 => Some a
  | OptVal (Some a), 0 => Some a
  | _, _ => None
  end.

Fixpoint down (o : obj) (l : list nat) : option obj :=
  match l with
  | [] => Some o
  | i :: l' => match part o i with Some a => down a l' | None => None end
  end.

Definition read (m : memory) (p : place) : option obj :=
  match nth_error m (fst p) with Some o => down o (snd p) | None => None end.

Definition inner (p : place) (i : nat) : place := (fst p, snd p ++ [i]).

(** Writing a part. *)
Fixpoint replace {A} (l : list A) (i : nat) (a : A) : list A :=
  match l, i with
  | [], _ => []
  | _ :: l', 0 => a :: l'
  | x :: l', S i' => x :: replace l' i' a
  end.

Fixpoint set_down (o : obj) (l : list nat) (a : obj) : obj :=
  match l with
  | [] => a
  | i :: l' =>
      match o, i with
      | Pack xs, _ => match nth_error xs i with Some x => Pack (replace xs i (set_down x l' a)) | None => o end
      | Alt k x, 0 => Alt k (set_down x l' a)
      | OptVal (Some x), 0 => OptVal (Some (set_down x l' a))
      | _, _ => o
      end
  end.

Definition write (m : memory) (p : place) (a : obj) : memory :=
  match nth_error m (fst p) with Some o => replace m (fst p) (set_down o (snd p) a) | None => m end.

(** The references in an object: those a copy of it has as well. *)
Fixpoint held (o : obj) : list place :=
  match o with
  | Atom | OptVal None | OptRef None => []
  | Link p | OptRef (Some p) => [p]
  | Pack l => flat_map held l
  | Alt _ a | OptVal (Some a) => held a
  end.

(** What an expression gives: a reference, with whether it is an rvalue, or a new object. *)
Inductive outcome : Type :=
| Ref (p : place) (rv : bool)
| New (o : obj).

Definition refs (x : outcome) : list place := match x with Ref p _ => [p] | New o => held o end.

(** An argument: its place, and whether it is an rvalue. *)
Definition arg : Type := place * bool.

(** get() (3059-3094), get_unchecked() (3126-3157): base::value or *base::value. *)
Definition get_place (m : memory) (p : place) : option place :=
  match read m p with
  | Some (OptVal (Some _)) => Some (inner p 0)
  | Some (OptRef (Some q)) => Some q
  | _ => None
  end.

(** A copy of what is at a place, or moving from it: the references are the same. *)
Definition copy (m : memory) (p : place) : option obj := read m p.

Definition pointer (q : option place) : obj := match q with Some q => Link q | None => Atom end.

Definition is_opt (m : memory) (p : place) : bool :=
  match read m p with Some (OptVal _) | Some (OptRef _) => true | _ => false end.

(** An element of type E& (a link), or of type E: what std::get, operator[] and *it refer to. *)
Definition element_place (m : memory) (p : place) (i : nat) : option place :=
  match read m (inner p i) with
  | Some (Link q) => Some q
  | Some _ => Some (inner p i)
  | None => None
  end.

(** flatten (3406-3414) of the option o at p. *)
Fixpoint flatten_at (o : obj) (p : place) (rv : bool) : option obj :=
  match o with
  | OptVal (Some a) =>
      match a with
      | OptVal _ | OptRef _ => flatten_at a (inner p 0) rv
      | _ => Some (if rv then OptVal (Some a) else OptRef (Some (inner p 0)))
      end
  | OptRef (Some q) => Some (OptRef (Some q))
  | OptVal None | OptRef None => Some (OptVal None)
  | _ => None
  end.

(** An option<E> for each element E of a tuple (1797-1819, 3416-3430). *)
Definition to_option (e : obj) : obj := match e with Link q => OptRef (Some q) | _ => OptVal (Some e) end.

(** A tuple element of type T for an option<T> (3344-3354). *)
Definition from_option (o : obj) : option obj :=
  match o with OptVal (Some a) => Some a | OptRef (Some q) => Some (Link q) | _ => None end.

Fixpoint all_some {A} (l : list (option A)) : option (list A) :=
  match l with
  | [] => Some []
  | Some a :: l' => match all_some l' with Some r => Some (a :: r) | None => None end
  | None :: _ => None
  end.

(** The functions.  Those given functions carry what these return for the places they are given. *)
Inductive func : Type :=
| Begin | End | Arrow | PtrOrNull            (* 2979-2994, 3095-3104, 3213-3218 *)
| Get | Star | Unchecked | Value | Throw     (* 3059-3094, 3105-3124, 3126-3157, 3164-3167, 3159-3162 *)
| Emplace (r : bool) | TryEmplace (r : bool) (* 3000-3015; r: T is a reference *)
| Inspect | OrAssign                         (* 3050-3057, 3669-3675 *)
| Take | Filter (yes : bool)                 (* 3034-3040, 3220-3227 *)
| ValueOr (r : bool) | ValueOrConstruct (r : bool) (* 3169-3193 *)
| MapOr (f : place -> obj)                   (* 3195-3202 *)
| AndThen (f : place -> obj)                 (* 3229-3236 *)
| Map (f : place -> outcome)                 (* 3238-3245 *)
| OrElse (d : obj)                           (* 3247-3250 *)
| GetI (i : nat) | VariantGet (i : nat)      (* 3441-3480, 3482-3513 *)
| Io                                         (* 3558-3574 *)
| At (i : nat) | Lookup (found : option nat) (* 3576-3600, 3609-3625 *)
| Flatten | Zip | Unzip                      (* 3406-3414, 3344-3354, 3416-3439 *)
| ZipWith (f : list place -> outcome)        (* 3356-3372 *)
| FromNullable | MakeOption | AsOption       (* 3383-3390, 3328-3341, 3392-3399 *)
| Or | And | Xor.                            (* 3641-3668, 3677-3690, 3692-3730 *)

(** Which parameters carry OPTION_LIFETIMEBOUND; *this is parameter 0 of a member function. *)
Definition annotated (f : func) (i : nat) : bool :=
  match f, i with
  | Begin, 0 | End, 0 => true                  (* 2980, 2984, 2988, 2992 *)
  | Arrow, 0 | PtrOrNull, 0 => true            (* 3096, 3101, 3213, 3216 *)
  | Get, 0 | Star, 0 => true                   (* 3060-3087, 3106-3121 *)
  | Value, 0 | Throw, 0 => true                (* 3159-3167 *)
  | Emplace _, 0 | TryEmplace _, 0 => true     (* 3002, 3010 *)
  | GetI _, 0 | VariantGet _, 0 => true        (* 3465-3480, 3498-3513 *)
  | Io, 0 | Io, 1 => true                      (* 3559-3572 *)
  | At _, 0 | Lookup _, 0 => true              (* 3577, 3585, 3594, 3610 *)
  | _, _ => false
  end.

(** The option a function ends with: option<R> from a result of type R. *)
Definition in_option (x : outcome) : obj :=
  match x with Ref p _ => OptRef (Some p) | New o => OptVal (Some o) end.

(** base::construct: of a value from what is at q (1934), of a pointer to q (2327). *)
Definition constructed (m : memory) (r : bool) (p q : place) : option obj :=
  match read m p, r with
  | Some (OptVal _), false => match copy m q with Some a => Some (OptVal (Some a)) | None => None end
  | Some (OptRef _), true => Some (OptRef (Some q))
  | _, _ => None
  end.

(** reset and construct, or construct (3003-3005, 3012), then operator*. *)
Definition construct_at (m : memory) (r : bool) (p q : place) : option (memory * outcome) :=
  match constructed m r p q with
  | Some o => let m' := write m p o in
              match get_place m' p with Some g => Some (m', Ref g false) | None => None end
  | None => None
  end.

(** Whether the option at p is one of references. *)
Definition of_reference (m : memory) (p : place) : bool :=
  match read m p with Some (OptRef _) => true | _ => false end.

(** The call: None if it is undefined, throws or does not compile. *)
Definition result (f : func) (m : memory) (args : list arg) : option (memory * outcome) :=
  let value x := Some (m, New x) in
  match f, args with
  | Begin, [(p, _)] | End, [(p, _)] | Arrow, [(p, _)] | PtrOrNull, [(p, _)] =>
      if is_opt m p then value (pointer (get_place m p)) else None
  | Get, [(p, rv)] | Star, [(p, rv)] | Unchecked, [(p, rv)] | Value, [(p, rv)] | Throw, [(p, rv)] =>
      match get_place m p with Some q => Some (m, Ref q rv) | None => None end
  | Emplace r, [(p, _); (q, _)] => construct_at m r p q
  | TryEmplace r, [(p, _); (q, _)] =>
      match get_place m p with
      | Some g => if Bool.eqb r (of_reference m p) then Some (m, Ref g false) else None
      | None => construct_at m r p q
      end
  | Inspect, [(p, _)] => if is_opt m p then Some (m, Ref p false) else None
  | OrAssign, [(p, _); (q, _)] =>
      match get_place m p with
      | Some _ => Some (m, Ref p false)
      | None => match copy m q with
                | Some o => if is_opt m p && is_opt m q then Some (write m p o, Ref p false) else None
                | None => None
                end
      end
  | Take, [(p, _)] =>
      match copy m p with
      | Some (OptVal v) => Some (write m p (OptVal None), New (OptVal v))
      | Some (OptRef v) => Some (write m p (OptRef None), New (OptRef v))
      | _ => None
      end
  | Filter yes, [(p, _)] =>
      match copy m p with
      | Some (OptVal v) => value (OptVal (if yes then v else None))
      | Some (OptRef v) => value (OptRef (if yes then v else None))
      | _ => None
      end
  | ValueOr r, [(p, _); (q, _)] | ValueOrConstruct r, [(p, _); (q, _)] =>
      match read m p, r with
      | Some (OptVal (Some a)), false => value a
      | Some (OptVal None), false => match copy m q with Some a => value a | None => None end
      | Some (OptRef (Some g)), true => Some (m, Ref g false)
      | Some (OptRef None), true => Some (m, Ref q false)
      | _, _ => None
      end
  | MapOr g, [(p, _); (q, _)] =>
      match get_place m p, copy m q with
      | Some r, _ => value (g r)
      | None, Some a => if is_opt m p then value a else None
      | None, None => None
      end
  | AndThen g, [(p, _)] =>
      match get_place m p with
      | Some r => value (g r)
      | None => if is_opt m p then value (OptVal None) else None
      end
  | Map g, [(p, _)] =>
      match get_place m p with
      | Some r => value (in_option (g r))
      | None => if is_opt m p then value (OptVal None) else None
      end
  | OrElse d, [(p, _)] =>
      match copy m p with
      | Some (OptVal None) | Some (OptRef None) => value d
      | Some (OptVal v) => value (OptVal v)
      | Some (OptRef v) => value (OptRef v)
      | _ => None
      end
  | GetI i, [(p, _)] =>
      match get_place m p with
      | Some g => match element_place m g i with Some e => value (OptRef (Some e)) | None => None end
      | None => if is_opt m p then value (OptRef None) else None
      end
  | VariantGet i, [(p, _)] =>
      match read m p with
      | Some (Alt j _) => value (OptRef (if Nat.eqb i j then Some (inner p 0) else None))
      | _ => None
      end
  | Io, [(p, _)] => if is_opt m p then value (Pack [Link p]) else None
  | Io, [(p, _); (q, _)] => if is_opt m p then value (Pack [Link p; Link q]) else None
  | At i, [(p, _)] =>
      match read m p with
      | Some (Pack _) => value (OptRef (element_place m p i))
      | _ => None
      end
  | Lookup found, [(p, _); _] =>
      match read m p with
      | Some (Pack _) =>
          match found with
          | Some i => match element_place m p i with Some e => value (OptRef (Some e)) | None => None end
          | None => value (OptRef None)
          end
      | _ => None
      end
  | Flatten, [(p, rv)] =>
      match read m p with
      | Some o => match flatten_at o p rv with Some r => value r | None => None end
      | None => None
      end
  | Zip, _ =>
      if forallb (fun a => is_opt m (fst a)) args then
        value (OptVal
          match all_some (map (fun a => match copy m (fst a) with Some o => from_option o | None => None end) args) with
          | Some l => Some (Pack l)
          | None => None
          end)
      else None
  | ZipWith g, _ =>
      if forallb (fun a => is_opt m (fst a)) args then
        value match all_some (map (fun a => get_place m (fst a)) args) with
              | Some l => in_option (g l)
              | None => OptVal None
              end
      else None
  | Unzip, [(p, _)] =>
      match get_place m p with
      | Some q => match copy m q with Some (Pack l) => value (Pack (map to_option l)) | _ => None end
      | None => if is_opt m p then value (Pack []) else None
      end
  | FromNullable, [(p, _)] =>
      match copy m p with
      | Some (Link q) => value (OptRef (Some q))
      | Some Atom => value (OptRef None)
      | _ => None
      end
  | MakeOption, [(p, _)] | AsOption, [(p, _)] =>
      match copy m p with Some a => value (OptVal (Some a)) | None => None end
  | Or, [(p, _); (q, _)] =>
      match copy m p, copy m q with
      | Some a, Some b => if is_opt m p && is_opt m q then
          value (match get_place m p with Some _ => a | None => b end) else None
      | _, _ => None
      end
  | And, [(p, _); (q, _)] =>
      match copy m q with
      | Some b => if is_opt m p && is_opt m q then
          value (match get_place m p with Some _ => b | None => OptVal None end) else None
      | None => None
      end
  | Xor, [(p, _); (q, _)] =>
      match copy m p, copy m q with
      | Some a, Some b => if is_opt m p && is_opt m q then
          value (match get_place m p, get_place m q with
                 | Some _, None => a
                 | None, Some _ => b
                 | _, _ => OptVal None
                 end) else None
      | _, _ => None
      end
  | _, _ => None
  end.

(** Expressions: a variable, the creation of an object, a call. *)
Inductive expr : Type :=
| Var (x : nat)
| Make (o : obj)
| Call (f : func) (l : list expr).

(** A new object that is an argument becomes a temporary. *)
Definition materialize (m : memory) (x : outcome) : memory * arg :=
  match x with
  | Ref p rv => (m, (p, rv))
  | New o => (m ++ [o], ((length m, []), true))
  end.

Fixpoint eval (e : expr) (m : memory) : option (memory * outcome) :=
  match e with
  | Var x => if Nat.ltb x (length m) then Some (m, Ref (x, []) false) else None
  | Make o => Some (m, New o)
  | Call f l =>
      let fix evals (l : list expr) (m : memory) : option (memory * list arg) :=
        match l with
        | [] => Some (m, [])
        | e :: l' =>
            match eval e m with
            | Some (m1, x) =>
                let (m2, a) := materialize m1 x in
                match evals l' m2 with Some (m3, r) => Some (m3, a :: r) | None => None end
            | None => None
            end
        end in
      match evals l m with
      | Some (m', args) => result f m' args
      | None => None
      end
  end.

(** Whether a call is a prvalue, by the declared return types. *)
Definition makes (f : func) : bool :=
  match f with
  | Get | Star | Unchecked | Value | Throw | Emplace _ | TryEmplace _ | Inspect | OrAssign => false
  | ValueOr r | ValueOrConstruct r => negb r
  | _ => true
  end.

Definition prvalue (e : expr) : bool :=
  match e with Var _ => false | Make _ => true | Call f _ => makes f end.

(** Clang's rule: a variable initialized by e keeps a temporary if e is a call and one of its annotated
    arguments is a prvalue or keeps one (clang/lib/Sema/SemaInit.cpp, visitLifetimeBoundArguments). *)
Fixpoint warned (e : expr) : bool :=
  match e with
  | Call f l =>
      let fix any (l : list expr) (i : nat) : bool :=
        match l with
        | [] => false
        | e :: l' => annotated f i && (prvalue e || warned e) || any l' (S i)
        end in
      any l 0
  | _ => false
  end.
