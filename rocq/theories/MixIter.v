(** Iterators and const iterators of one option in the same program.

    Models: include/opt/option.hpp 2404-2506 (option_iterator with its conversion to the const iterator),
    2829-2830 (iterator and const_iterator), 2979-2994 (the two versions of begin and end).

    Every operator with two iterators is a member (2477-2505): the left operand has to be of the class itself,
    the right one may be converted.  C++20 also tries == with exchanged operands, for == and for !=
    ([over.match.oper]); since P2468, a defect report against C++20, it does not if the class has a != with the
    same parameters, which is the case here (2487). *)
From Coq Require Import NArith ZArith Bool List.
From Verif Require Import Outcome Iter IterProg.
Import ListNotations.
Open Scope Z_scope.
Open Scope res_scope.

(** The argument T of option_iterator: an object or a reference, to something const or not. *)
Inductive elem : Type := Object (const : bool) | Reference (const : bool).

Definition same_elem (a b : elem) : bool :=
  match a, b with
  | Object c, Object d => Bool.eqb c d
  | Reference c, Reference d => Bool.eqb c d
  | _, _ => false
  end.

(** [const T]: no effect on a reference ([dcl.ref]). *)
Definition add_const (a : elem) : elem := match a with Object _ => Object true | Reference c => Reference c end.

(** 2829-2830. *)
Definition iterator (t : elem) : elem := t.
Definition const_iterator (t : elem) : elem := add_const t.

(** 2411-2414: whether [reference] is a reference to something that is not const. *)
Definition writable (a : elem) : bool := match a with Object c | Reference c => negb c end.

(** From the iterator of [a] to that of [b]: a copy, or the conversion of 2421-2423. *)
Definition converts (a b : elem) : bool := same_elem a b || same_elem (add_const a) b.
Definition convert (a b : elem) (p : iptr) : iptr := if same_elem a b then p else it_const p.

(** The language. *)
Inductive rules : Type := Cxx17 | Cxx20 | P2468.

Inductive way : Type := Direct | Exchanged.
(** Comparing [l] with [r]. *)
Definition resolve (g : rules) (c : rel) (l r : elem) : option way :=
  if converts r l then Some Direct
  else match c, g with
       | (CEq | CNe), Cxx20 => if converts l r then Some Exchanged else None
       | _, _ => None
       end.
(** l - r (2477). *)
Definition subtracts (l r : elem) : bool := converts r l.

(** [i], [j]: the number of an iterator, in the order in which they were made; the first four are begin() and
    end() of the option and of a const reference to it. *)
Inductive mprog (R : Type) : Type :=
| MDone (r : R)
| MMove (m : move) (i : nat) (k : mprog R)
| MConst (i : nat) (k : mprog R)                 (* const_iterator c = i; *)
| MAssign (i j : nat) (k : mprog R)              (* i = j; *)
| MDistance (i j : nat) (k : Z -> mprog R)
| MCompare (c : rel) (i j : nat) (k : bool -> mprog R)
| MRead (i : nat) (k : Z -> mprog R)             (* *i *)
| MWrite (i : nat) (v : Z) (k : mprog R).        (* *i = v; *)
Arguments MDone {R} r.
Arguments MMove {R} m i k.
Arguments MConst {R} i k.
Arguments MAssign {R} i j k.
Arguments MDistance {R} i j k.
Arguments MCompare {R} c i j k.
Arguments MRead {R} i k.
Arguments MWrite {R} i v k.

Definition made_by (m : move) : nat := match m with PostInc | PostDec => 2 | _ => 1 end.

(** Whether the program compiles, [ts] being the types of the iterators so far. *)
Fixpoint accepted {R} (g : rules) (p : mprog R) (ts : list elem) : Prop :=
  match p with
  | MDone _ => True
  | MMove m i k => exists a, nth_error ts i = Some a /\ accepted g k (ts ++ repeat a (made_by m))
  | MConst i k => exists a, nth_error ts i = Some a /\ accepted g k (ts ++ [add_const a])
  | MAssign i j k => exists a b, nth_error ts i = Some a /\ nth_error ts j = Some b /\ converts b a = true /\ accepted g k ts
  | MDistance i j k => exists a b, nth_error ts i = Some a /\ nth_error ts j = Some b /\ subtracts a b = true /\
      forall n, accepted g (k n) ts
  | MCompare c i j k => exists a b, nth_error ts i = Some a /\ nth_error ts j = Some b /\ resolve g c a b <> None /\
      forall x, accepted g (k x) ts
  | MRead i k => exists a, nth_error ts i = Some a /\ forall v, accepted g (k v) ts
  | MWrite i v k => exists a, nth_error ts i = Some a /\ writable a = true /\ accepted g k ts
  end.

Fixpoint set_nth {A} (l : list A) (i : nat) (x : A) : list A :=
  match l, i with
  | [], _ => []
  | _ :: l, O => x :: l
  | y :: l, S i => y :: set_nth l i x
  end.

(** The values of all objects. *)
Definition memory : Type := N -> Z.
Definition store (h : memory) (o : N) (v : Z) : memory := fun x => if N.eqb x o then v else h x.

(** What the chosen operator computes. *)
Definition compared (g : rules) (c : rel) (l r : elem) (p q : iptr) : res bool :=
  match resolve g c l r with
  | Some Direct => do_compare c p (convert r l q)
  | Some Exchanged =>
      let* x := do_compare CEq q (convert l r p) in
      Ok (match c with CNe => negb x | _ => x end)
  | None => UB
  end.

(** [ts] and [ps]: the types and the values of the iterators. *)
Fixpoint mrun {R} (g : rules) (p : mprog R) (ts : list elem) (ps : list iptr) (h : memory) : res (R * memory) :=
  match p with
  | MDone r => Ok (r, h)
  | MMove m i k =>
      let* a := reg ts i in let* p := reg ps i in
      let* l := do_move m p in mrun g k (ts ++ repeat a (made_by m)) (ps ++ l) h
  | MConst i k => let* a := reg ts i in let* p := reg ps i in
      mrun g k (ts ++ [add_const a]) (ps ++ [convert a (add_const a) p]) h
  | MAssign i j k => let* a := reg ts i in let* b := reg ts j in let* q := reg ps j in
      mrun g k ts (set_nth ps i (convert b a q)) h
  | MDistance i j k => let* a := reg ts i in let* b := reg ts j in let* p := reg ps i in let* q := reg ps j in
      let* n := it_diff p (convert b a q) in mrun g (k n) ts ps h
  | MCompare c i j k => let* a := reg ts i in let* b := reg ts j in let* p := reg ps i in let* q := reg ps j in
      let* x := compared g c a b p q in mrun g (k x) ts ps h
  | MRead i k => let* p := reg ps i in let* o := it_star p in mrun g (k (h o)) ts ps h
  | MWrite i v k => let* p := reg ps i in let* o := it_star p in mrun g k ts ps (store h o v)
  end.

(** The iterators a program starts with. *)
Definition start_types (t : elem) : list elem := [iterator t; iterator t; const_iterator t; const_iterator t].
