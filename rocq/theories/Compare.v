(** Which comparison operator the compiler chooses for options of options, for opt::none and for values, and
    what the chosen operator computes.

    Models: include/opt/option.hpp 3729-3895, the five templates of each of the six operators, with the rules
    of C++ for choosing between templates ([temp.func.order]) and, from C++20 on, the candidates with exchanged
    operands ([over.match.oper], [over.match.best]).  Every parameter is a reference to const or opt::none_t, so
    no conversion is better than another. *)
From Coq Require Import Bool List Arith.
From Verif Require Import ObserveSpec Convert.
Import ListNotations.

(** The types of the operands: what T can be, opt::none_t, an option. *)
Inductive cty : Type :=
  | Plain (b : nat)
  | NoneT
  | Opt (t : cty).

(** The templates: option with option (3737-3785), option with none and none with option (3787-3834), option with
    value and value with option (3836-3895). *)
Inductive shape : Type := OO | ON | NO | OV | VO.
Definition shapes : list shape := [OO; ON; NO; OV; VO].

Definition same_shape (a b : shape) : bool :=
  match a, b with
  | OO, OO | ON, ON | NO, NO | OV, OV | VO, VO => true
  | _, _ => false
  end.

(** A candidate: the template, the operator it belongs to, and whether the operands are exchanged for it. *)
Record cand : Type := mkcand { tmpl : shape; oper : rel6; exch : bool }.

Definition mirrored_shape (s : shape) : shape :=
  match s with
  | OO => OO
  | ON => NO
  | NO => ON
  | OV => VO
  | VO => OV
  end.

(** The parameters of the candidate in the order of the operands. *)
Definition pattern (c : cand) : shape := if exch c then mirrored_shape (tmpl c) else tmpl c.

(** More specialised: the parameters of [b] can be deduced from those of [a], but not the other way round. *)
Definition more_special (a b : shape) : bool :=
  match a, b with
  | OO, OV | OO, VO | ON, OV | NO, VO => true
  | _, _ => false
  end.

Definition same_rel (a b : rel6) : bool :=
  match a, b with
  | REq, REq | RNe, RNe | RLt, RLt | RLe, RLe | RGt, RGt | RGe, RGe => true
  | _, _ => false
  end.

(** What the compiler had to do to get the candidate for [rel]: nothing, negate ==, exchange the operands. *)
Definition effort (rel : rel6) (c : cand) : nat :=
  if exch c then 2 else if same_rel (oper c) rel then 0 else 1.

(** Better: more specialised, or with the same parameters and less effort. *)
Definition better (rel : rel6) (a b : cand) : bool :=
  more_special (pattern a) (pattern b) ||
  (same_shape (pattern a) (pattern b) && (effort rel a <? effort rel b)).

Definition same_cand (a b : cand) : bool :=
  same_shape (tmpl a) (tmpl b) && same_rel (oper a) (oper b) && Bool.eqb (exch a) (exch b).

(** The answer of overload resolution. *)
Inductive answer : Type :=
  | Own            (* the operator of the operands themselves *)
  | Chosen (c : cand)
  | Invalid.       (* none, or ambiguous *)

Definition valid (a : answer) : bool := match a with Invalid => false | _ => true end.

Section Resolve.
(** [own]: the operators of types that are not options.  [exchanged s]: the template of == takes part with
    exchanged operands as well, in C++20. *)
Context (own : rel6 -> cty -> cty -> bool) (cxx20 : bool) (exchanged : shape -> bool).

(** From C++20 on == is tried with exchanged operands and != is also tried as the negation of ==. *)
Definition candidates (rel : rel6) : list cand :=
  map (fun s => mkcand s rel false) shapes ++
  (if cxx20 then
     match rel with
     | REq => map (fun s => mkcand s REq true) (filter exchanged shapes)
     | RNe => map (fun s => mkcand s REq false) shapes ++ map (fun s => mkcand s REq true) (filter exchanged shapes)
     | _ => []
     end
   else []).

(** Does the template accept operands of these types?  Its parameters are deduced and the expression in its
    trailing return type is valid. *)
Definition accepts (ask : cty -> cty -> bool) (s : shape) (l r : cty) : bool :=
  match s, l, r with
  | OO, Opt a, Opt b => ask a b
  | ON, Opt _, NoneT => true
  | NO, NoneT, Opt _ => true
  | OV, Opt a, _ => ask a r
  | VO, _, Opt b => ask l b
  | _, _, _ => false
  end.

Definition viable (ask : rel6 -> cty -> cty -> bool) (l r : cty) (c : cand) : bool :=
  if exch c then accepts (ask (oper c)) (tmpl c) r l else accepts (ask (oper c)) (tmpl c) l r.

Definition best_of (rel : rel6) (cs : list cand) : answer :=
  match find (fun c => forallb (fun d => same_cand c d || better rel c d) cs) cs with
  | Some c => Chosen c
  | None => Invalid
  end.

(** [n]: as many layers of option as are to be looked at. *)
Fixpoint resolve (n : nat) (rel : rel6) (l r : cty) : answer :=
  match l, r with
  | Opt _, _ | _, Opt _ =>
      match n with
      | O => Invalid
      | S n => best_of rel (filter (viable (fun rel' a b => valid (resolve n rel' a b)) l r) (candidates rel))
      end
  | _, _ => if own rel l r then Own else Invalid
  end.

(** The layers of both operands. *)
Fixpoint layers (t : cty) : nat := match t with Opt t => S (layers t) | _ => O end.
Definition chosen (rel : rel6) (l r : cty) : answer := resolve (layers l + layers r) rel l r.

(** The operands: [Leaf] is an object of T or opt::none. *)
Section Eval.
Context {X : Type} (base : rel6 -> X -> X -> bool).

Definition on_bools (r : rel6) (a b : bool) : bool :=
  match r with
  | REq => Bool.eqb a b
  | RNe => negb (Bool.eqb a b)
  | RLt => negb a && b
  | RLe => negb a || b
  | RGt => a && negb b
  | RGe => a || negb b
  end.

Definition engaged {X} (v : value X) : bool := match v with Yes _ => true | _ => false end.

(** The body of each template; [op] is the operator on what the options hold.  None: not a valid program. *)
Definition body (op : value X -> value X -> option bool) (r : rel6) (s : shape) (v w : value X) : option bool :=
  match s with
  | OO =>
      match v, w with
      | Yes v, Yes w => op v w
      | _, _ => Some (on_bools r (engaged v) (engaged w))
      end
  | ON =>
      Some (match r with
            | REq => negb (engaged v) | RNe => engaged v | RLt => false | RLe => negb (engaged v)
            | RGt => engaged v | RGe => true end)
  | NO =>
      Some (match r with
            | REq => negb (engaged w) | RNe => engaged w | RLt => engaged w | RLe => true
            | RGt => false | RGe => negb (engaged w) end)
  | OV =>
      match v with
      | Yes v => op v w
      | _ => Some (match r with REq => false | RNe => true | RLt => true | RLe => true | RGt => false | RGe => false end)
      end
  | VO =>
      match w with
      | Yes w => op v w
      | _ => Some (match r with REq => false | RNe => true | RLt => false | RLe => false | RGt => true | RGe => true end)
      end
  end.

(** The types of the operands that the body compares. *)
Definition inside (s : shape) (l r : cty) : cty * cty :=
  match s, l, r with
  | OO, Opt a, Opt b => (a, b)
  | OV, Opt a, _ => (a, r)
  | VO, _, Opt b => (l, b)
  | _, _, _ => (l, r)
  end.

(** The operands of a candidate, and its answer if it was made from ==. *)
Definition turn {A} (c : cand) (p : A * A) : A * A := if exch c then (snd p, fst p) else p.
Definition conclude (rel : rel6) (c : cand) (b : option bool) : option bool :=
  if same_rel (oper c) rel then b else option_map negb b.

Fixpoint eval (n : nat) (rel : rel6) (l r : cty) (v w : value X) : option bool :=
  match resolve n rel l r with
  | Invalid => None
  | Own => match v, w with Leaf x, Leaf y => Some (base rel x y) | _, _ => None end
  | Chosen c =>
      match n with
      | O => None
      | S n =>
          let (l', r') := turn c (l, r) in
          let (v', w') := turn c (v, w) in
          let (a, b) := inside (tmpl c) l' r' in
          conclude rel c (body (eval n (oper c) a b) (oper c) (tmpl c) v' w')
      end
  end.

Definition compare_values (rel : rel6) (l r : cty) (v w : value X) : option bool :=
  eval (layers l + layers r) rel l r v w.

End Eval.
End Resolve.
