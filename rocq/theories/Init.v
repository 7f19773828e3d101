(** Which form of initialisation makes the contained value: parentheses or braces.

    Models: include/opt/option.hpp 648-668 (construct_at), 1817-1840 (is_initializable_from), 1919-1925 and
    its copies (in-place constructors of the bases), 2540-2548 (value_or_construct), 2842-2868 (constructors
    of option), 3001-3014 (emplace, try_emplace), 3896-3928 (type_wrapper, from which sentinel, sentinel_f,
    member and enforce inherit their constructors).

    The types are integers, std::vector and std::string of integers, aggregates of any shape with brace
    elision, and the wrapper classes.  The arguments are integers (never constant expressions: they arrive
    through function parameters), string literals, and objects of the type itself.  An allocation that
    fails or a vector that would be too long throws at run time; this is left out. *)
From Coq Require Import ZArith NArith List Bool.
From Verif Require Import Outcome Words Ints.
Import ListNotations.
Open Scope Z_scope.

Inductive uty : Type :=
| UInt (it : ity)
| UVec (it : ity)                 (* std::vector<it> *)
| UStr (it : ity)                 (* std::basic_string<it> *)
| UAgg (ms : list uty)            (* an aggregate class and its members *)
| UCArr (n : nat) (t : uty)       (* t[n], as a member: std::array<t, n> is UAgg [UCArr n t] *)
| UWrap (t : uty).                (* opt::enforce<t>, opt::sentinel<t, ...>, opt::member<t, ...> *)

Inductive uval : Type := VInt (z : Z) | VSeq (vs : list uval).

Inductive arg : Type :=
| AInt (it : ity) (z : Z)
| ALit (s : list Z)               (* a string literal *)
| AObj (v : uval).                (* an object of the type that is being initialised *)

(** The answer of the compiler: no viable function (an overload disappears), an error inside the body of
    the function that was chosen, or a value. *)
Inductive init : Type := Bad | Hard | Val (v : uval).
Definition okay (i : init) : bool := match i with Bad => false | _ => true end.
Definition must (i : init) : init := match i with Bad => Hard | i => i end.

Definition size_type : ity := {| iw := 8; isg := false |}.
Definition elements (n : Z) : nat := Z.to_nat (wrap size_type n).

(** Not a narrowing conversion: the target represents every value of the source type. *)
Definition fits (src dst : ity) : bool := (imin dst <=? imin src) && (imax src <=? imax dst).

(** Value-initialisation. *)
Fixpoint zero (t : uty) : uval :=
  match t with
  | UInt _ => VInt 0
  | UVec _ => VSeq []
  | UStr _ => VSeq []
  | UAgg ms => VSeq (map zero ms)
  | UCArr n t => VSeq (repeat (zero t) n)
  | UWrap t => zero t
  end.

(** Implicit conversion of an argument.  A wrapper is made by type_wrapper(T&&) (3913), after a standard
    conversion to T; a user-defined conversion to T would be one too many. *)
Definition conv (t : uty) (a : arg) : init :=
  match t, a with
  | UInt it, AInt _ z => Val (VInt (wrap it z))
  | UStr it, ALit s => Val (VSeq (map VInt s))
  | UWrap (UInt it), AInt _ z => Val (VInt (wrap it z))
  | _, _ => Bad
  end.

(** Aggregate initialisation with braces elided: the value and the arguments that remain. *)
Definition empty_class (t : uty) : bool := match t with UAgg [] => true | _ => false end.
Section Elide.
Variable elide : uty -> list arg -> option (uval * list arg).
Fixpoint elide_members (ms : list uty) (args : list arg) : option (list uval * list arg) :=
  match ms with
  | [] => Some ([], args)
  | m :: ms =>
      if empty_class m && negb (match args with [] => true | _ => false end) then None else
      match elide m args with
      | Some (v, args') => match elide_members ms args' with
                           | Some (vs, rest) => Some (v :: vs, rest)
                           | None => None
                           end
      | None => None
      end
  end.
End Elide.
Section Elements.
Variable one : list arg -> option (uval * list arg).
Fixpoint elide_elements (n : nat) (args : list arg) : option (list uval * list arg) :=
  match n with
  | O => Some ([], args)
  | S n =>
      match one args with
      | Some (v, args') => match elide_elements n args' with
                           | Some (vs, rest) => Some (v :: vs, rest)
                           | None => None
                           end
      | None => None
      end
  end.
End Elements.
Definition seq (o : option (list uval * list arg)) : option (uval * list arg) :=
  match o with Some (vs, rest) => Some (VSeq vs, rest) | None => None end.
Fixpoint elide (t : uty) (args : list arg) : option (uval * list arg) :=
  match t with
  | UInt it =>
      match args with
      | [] => Some (VInt 0, [])
      | AInt s z :: rest => if fits s it then Some (VInt (wrap it z), rest) else None
      | _ => None
      end
  | UAgg ms => seq (elide_members elide ms args)
  | UCArr n t => seq (elide_elements (elide t) n args)
  | t =>
      match args with
      | [] => Some (zero t, [])
      | a :: rest => match conv t a with Val v => Some (v, rest) | _ => None end
      end
  end.

(** Aggregate initialisation in parentheses (C++20): one argument per member, no elision. *)
Fixpoint each_member (ms : list uty) (args : list arg) : option (list uval) :=
  match args, ms with
  | [], ms => Some (map zero ms)
  | a :: args, m :: ms =>
      match conv m a, each_member ms args with
      | Val v, Some vs => Some (v :: vs)
      | _, _ => None
      end
  | _, [] => None
  end.

(** The elements of an initializer_list<it>. *)
Fixpoint list_of (it : ity) (args : list arg) : option (list uval) :=
  match args with
  | [] => Some []
  | AInt s z :: args => if fits s it then option_map (cons (VInt (wrap it z))) (list_of it args) else None
  | _ => None
  end.

Definition aggregate (t : uty) : bool := match t with UAgg _ => true | _ => false end.

Section Standard.
Variable cxx20 : bool.

(** 1817-1840: is_initializable_from, from T(args...) and T{args...}. *)
Definition initializable_by (agg : bool) (p b : init) : bool :=
  if cxx20 then okay p else if okay p then true else agg && okay b.

(** T(args...) and T{args...}. *)
Fixpoint both (t : uty) (args : list arg) : init * init :=
  match t, args with
  | UCArr _ _, _ => (Bad, Bad)
  | t, [] => (Val (zero t), Val (zero t))
  | _, [AObj v] => (Val v, Val v)
  | UInt it, [AInt s z] => (Val (VInt (wrap it z)), if fits s it then Val (VInt (wrap it z)) else Bad)
  | UInt _, _ => (Bad, Bad)
  | UVec it, args =>
      (match args with
       | [AInt _ n] => Val (VSeq (repeat (VInt 0) (elements n)))
       | [AInt _ n; AInt _ x] => Val (VSeq (repeat (VInt (wrap it x)) (elements n)))
       | _ => Bad
       end,
       match list_of it args with Some vs => Val (VSeq vs) | None => Bad end)
  | UStr it, [ALit s] => (Val (VSeq (map VInt s)), Val (VSeq (map VInt s)))
  | UStr it, args =>
      (match args with
       | [AInt _ n; AInt _ x] => Val (VSeq (repeat (VInt (wrap it x)) (elements n)))
       | _ => Bad
       end,
       match list_of it args with Some vs => Val (VSeq vs) | None => Bad end)
  | UAgg ms, args =>
      (if cxx20 then match each_member ms args with Some vs => Val (VSeq vs) | None => Bad end else Bad,
       match elide (UAgg ms) args with Some (v, []) => Val v | _ => Bad end)
  | UWrap t, args =>
      (* 3902-3904: the template, whose body says m{args...}; 3912-3915 take what converts to T. *)
      let '(p, b) := both t args in
      let i := if initializable_by (aggregate t) p b then must b
               else match args with [a] => conv t a | _ => Bad end in
      (i, i)
  end.
Definition paren (t : uty) (args : list arg) : init := fst (both t args).
Definition brace (t : uty) (args : list arg) : init := snd (both t args).
Definition initializable (t : uty) (args : list arg) : bool := initializable_by (aggregate t) (paren t args) (brace t args).

(** option(U&&), option(First&&, Second&&, Args&&...), option(std::in_place, Args&&...): enabled by
    is_initializable_from, then value{...} for aggregates and value(...) otherwise. *)
Definition by_constructor (t : uty) (args : list arg) : init :=
  if initializable t args then must (if aggregate t then brace t args else paren t args) else Bad.

(** construct_at: std's in C++20 uses parentheses; 648-668. *)
Definition by_construct_at (t : uty) (args : list arg) : init :=
  if cxx20 then paren t args else if aggregate t then brace t args else paren t args.
(** emplace, try_emplace: no constraint. *)
Definition by_emplace (t : uty) (args : list arg) : init := must (by_construct_at t args).

(** value_or_construct: no constraint. *)
Definition by_value_or_construct (t : uty) (args : list arg) : init :=
  must (if aggregate t then brace t args else paren t args).

(** std::is_assignable<T&, argument>: the assignment operators of these classes take T (which the argument
    is converted to), std::string also takes literals and, like integers, integers. *)
Definition assignable (t : uty) (a : arg) : bool :=
  match t, a with
  | _, AObj _ => true
  | UStr _, AInt _ _ => true
  | t, a => okay (conv t a)
  end.
(** operator=(U&&) 2912-2930 of an empty option. *)
Definition by_assignment (t : uty) (a : arg) : init :=
  if initializable t [a] && assignable t a then must (by_construct_at t [a]) else Bad.

(** The declaration option<T> x = a: the constructor is not explicit (2654-2657). *)
Definition implicitly (t : uty) (a : arg) : bool :=
  initializable t [a] && match a with AObj _ => true | a => okay (conv t a) end.
End Standard.

(** std::optional<T>: the constructors and emplace use parentheses and is_constructible, in every standard
    (with the rules of C++20 for aggregates).  For comparison only. *)
Definition std_optional (t : uty) (args : list arg) : init := paren true t args.
