(** Conversion between nested options: which constructor each layer takes, and what comes out.

    Models: the constructors of option<T> for one argument, include/opt/option.hpp 2838-2849 and 2873-2901,
    when T and the argument are options of options.  The answers of the compiler about an option are those
    of these constructors ([closed]); its answers about other types are unrestricted. *)
From Coq Require Import Bool List Arith.
From Verif Require Import Constraints ConstraintsSpec.
Import ListNotations.

Definition is_volatile (u : ctype) : bool := match u with ct _ _ v _ => v end.

(** Does a parameter option<U>&& bind to an argument of type u? *)
Definition moves (u : ctype) : bool := match u with ct NoRef false _ _ | ct RRef false _ _ => true | _ => false end.

(** Is there a constructor of option<t> for one argument of type u?  [ex]: an explicit one.  The copy and
    move constructors are implicit; T can be copied and moved. *)
Definition one_argument (L : lang) (ex : bool) (t u : ctype) : bool :=
  value_ctor L ex t u ||
  match remove_cvref u with
  | ct _ _ _ (OptionOf x) =>
      option_ctor L ex t x (const_lref x) || (moves u && option_ctor L ex t x (rref x)) ||
      (negb ex && same x t)
  | _ => false
  end.

(** The arguments considered: objects that are not volatile and not std::in_place_t. *)
Definition argument (u : ctype) : bool := negb (is_volatile u) && negb (same (remove_cvref u) in_place_t).

(** The compiler knows about options what the declarations say. *)
Definition closed (L : lang) : Prop :=
  forall t, is_reference t = false ->
    aggregate L (option_of t) = false /\
    forall u, argument u = true ->
      constructible L (option_of t) [u] = one_argument L true t u || one_argument L false t u /\
      convertible L u (option_of t) = one_argument L false t u.

(** option<option<...<b>...>> *)
Fixpoint nested (k : nat) (b : ctype) : ctype :=
  match k with
  | O => b
  | S k => option_of (nested k b)
  end.

(** Values of nested options over leaves of type X. *)
Inductive value (X : Type) : Type :=
  | Leaf (x : X)
  | No
  | Yes (v : value X).
Arguments Leaf {X} x.
Arguments No {X}.
Arguments Yes {X} v.

(** Are the layers of v as deep as the type says? *)
Fixpoint has_depth {X} (m : nat) (v : value X) : Prop :=
  match m, v with
  | O, Leaf _ => True
  | S m, No => True
  | S m, Yes v => has_depth m v
  | _, _ => False
  end.

(** The contents of a nested option, copied or converted layer by layer. *)
Fixpoint map_leaf {X Y} (f : X -> Y) (v : value X) : value Y :=
  match v with
  | Leaf x => Leaf (f x)
  | No => No
  | Yes v => Yes (map_leaf f v)
  end.

(** Construct the contents if the source has a value. *)
Definition follow {X Y} (v : value X) (f : value X -> option (value Y)) : option (value Y) :=
  match v with
  | Yes w => option_map Yes (f w)
  | _ => Some No
  end.

(** The value of nested k b constructed from an argument of type nested m a and category c.  A constructor from
    a value forwards its argument and makes an engaged option (2842-2849); a converting constructor follows the
    source and passes on other.get(), a const lvalue, or std::move(other).get() (2873-2901).  [make]: the value of
    type b constructed from what is passed on in the end.  None: ill-formed. *)
Fixpoint build {X Y} (L : lang) (a b : ctype) (c : category) (make : value X -> Y) (k m : nat) (v : value X)
    : option (value Y) :=
  match k with
  | O => if initializable L b [deduced c (nested m a)] then Some (Leaf (make v)) else None
  | S k' =>
      match m with
      | O =>
          if value_ctor L true (nested k' b) (deduced c a) || value_ctor L false (nested k' b) (deduced c a)
          then option_map Yes (build L a b c make k' O v) else None
      | S m' =>
          if same (nested m' a) (nested k' b) then Some (map_leaf (fun x => make (Leaf x)) v)
          else
            match choose L (nested k' b) (nested m' a) c with
            | FromValue => option_map Yes (build L a b c make k' m v)
            | FromCopy => follow v (build L a b ConstLvalue make k' m')
            | FromMove => follow v (build L a b Rvalue make k' m')
            | NoCtor => None
            end
      end
  end.
