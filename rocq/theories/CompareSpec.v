(** The order of options of any depth: C71. *)
From Coq Require Import Bool List Arith.
From Verif Require Import ObserveSpec Convert Compare.
Import ListNotations.

(** option<none_t> is not a type (2815). *)
Fixpoint proper (t : cty) : bool :=
  match t with
  | Opt NoneT => false
  | Opt t => proper t
  | _ => true
  end.

(** The innermost type. *)
Fixpoint core (t : cty) : cty := match t with Opt t => core t | _ => t end.

(** What the language does for the operators of other types in C++20: a == b is b == a, and a != b is
    !(a == b), if there is nothing else. *)
Definition own_law (own : rel6 -> cty -> cty -> bool) (cxx20 : bool) : Prop :=
  cxx20 = true -> (forall l r, own REq l r = own REq r l) /\ (forall l r, own REq l r = true -> own RNe l r = true).

(** Two operands, at least one an option, compare exactly if their innermost types do, or one is none. *)
Definition comparable (own : cty -> cty -> bool) (l r : cty) : bool :=
  match l, r with
  | Opt _, NoneT | NoneT, Opt _ => true
  | _, _ => own (core l) (core r)
  end.

(** The comparisons considered: of things other than none. *)
Definition operands (l r : cty) : bool :=
  match l, r with
  | NoneT, Opt _ | Opt _, NoneT => true
  | NoneT, _ | _, NoneT => false
  | _, _ => true
  end.

(** The template made for the operands, or the operator of values. *)
Definition best_template (rel : rel6) (l r : cty) : answer :=
  match l, r with
  | Opt _, Opt _ => Chosen (mkcand OO rel false)
  | Opt _, NoneT => Chosen (mkcand ON rel false)
  | NoneT, Opt _ => Chosen (mkcand NO rel false)
  | Opt _, _ => Chosen (mkcand OV rel false)
  | _, Opt _ => Chosen (mkcand VO rel false)
  | _, _ => Own
  end.

(** The number of values around the place where a nested option is empty; none if it is full. *)
Fixpoint stop {X} (v : value X) : option nat :=
  match v with
  | Leaf _ => None
  | No => Some 0
  | Yes v => option_map S (stop v)
  end.

Fixpoint leaf {X} (v : value X) : option X :=
  match v with
  | Leaf x => Some x
  | No => None
  | Yes v => leaf v
  end.

(** An operand: a value of the right depth; opt::none is like an empty option. *)
Fixpoint fits {X} (t : cty) (v : value X) : Prop :=
  match t, v with
  | Plain _, Leaf _ => True
  | NoneT, No => True
  | Opt _, No => True
  | Opt t, Yes v => fits t v
  | _, _ => False
  end.

(** The operand that is empty further out is smaller; one that is full is larger than one that is not; two that
    are full compare like what they hold.  Depths do not matter. *)
Definition order {X} (base : rel6 -> X -> X -> bool) (rel : rel6) (v w : value X) : option bool :=
  match stop v, stop w with
  | Some i, Some j => Some (of_comparison rel (Nat.compare i j))
  | Some _, None => Some (of_comparison rel Lt)
  | None, Some _ => Some (of_comparison rel Gt)
  | None, None =>
      match leaf v, leaf w with
      | Some x, Some y => Some (base rel x y)
      | _, _ => None
      end
  end.
