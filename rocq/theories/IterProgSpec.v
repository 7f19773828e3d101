(** What the standard promises to a program that uses a random access, contiguous range.

    A range of [len] objects; an iterator is a position from 0 to [len], a pointer likewise
    ([random.access.iterators], [iterator.concept.contiguous], [range.prim.data]).  Moving by 0 and asking for
    the address is allowed everywhere, also in an empty range. *)
From Coq Require Import NArith ZArith Bool List.
From Verif Require Import Outcome IterProg.
Import ListNotations.
Open Scope Z_scope.

Section Range.
Context (len : Z) (object : Z -> N).

Definition position {R} (x : Z) (k : Z -> res R) : res R := if (0 <=? x) && (x <=? len) then k x else UB.
Definition element {R} (x : Z) (k : N -> res R) : res R := if (0 <=? x) && (x <? len) then k (object x) else UB.
Definition made {R} (l : list Z) (i : nat) (k : Z -> res R) : res R :=
  match nth_error l i with Some x => k x | None => UB end.

Definition target (m : move) (x : Z) : Z :=
  match m with
  | Plus n | LeftPlus n => x + n
  | Minus n => x - n
  | Inc | PostInc => x + 1
  | Dec | PostDec => x - 1
  end.
Definition old_too (m : move) : bool := match m with PostInc | PostDec => true | _ => false end.

Definition answer (c : rel) (x y : Z) : bool :=
  match c with
  | CEq => x =? y
  | CNe => negb (x =? y)
  | CLt => x <? y
  | CGt => y <? x
  | CLe => x <=? y
  | CGe => y <=? x
  end.

Fixpoint promised {R} (p : prog R) (its ps : list Z) : res R :=
  match p with
  | Done r => Ok r
  | Move m i k => made its i (fun x => position (target m x) (fun y =>
      promised k (its ++ (if old_too m then [x; y] else [y])) ps))
  | Distance i j k => made its i (fun x => made its j (fun y => promised (k (x - y)) its ps))
  | Compare c i j k => made its i (fun x => made its j (fun y => promised (k (answer c x y)) its ps))
  | Star i k => made its i (fun x => element x (fun o => promised (k o) its ps))
  | Index i n k => made its i (fun x => element (x + n) (fun o => promised (k o) its ps))
  | ToAddress i k => made its i (fun x => promised k its (ps ++ [x]))
  | PStar i k => made ps i (fun x => element x (fun o => promised (k o) its ps))
  | PDistance i j k => made ps i (fun x => made ps j (fun y => promised (k (x - y)) its ps))
  end.
End Range.

(** The program never does anything with the iterators of an empty range but compare them with ==, !=, <=, >=
    or subtract them (their distance is 0). *)
Fixpoint only_looks {R} (p : prog R) : Prop :=
  match p with
  | Done _ => True
  | Distance _ _ k => only_looks (k 0)
  | Compare CEq _ _ k | Compare CLe _ _ k | Compare CGe _ _ k => only_looks (k true)
  | Compare CNe _ _ k => only_looks (k false)
  | _ => False
  end.

(** std::span(r), std::ranges::data and std::ranges::size: the address of the first element and the size. *)
Definition span : prog Z := ToAddress 0 (Distance 1 0 (fun n => Done n)).
(** std::ranges::next(first, last) and the end of many algorithms: first + (last - first) is last. *)
Definition next : prog bool := Distance 1 0 (fun n => Move (Plus n) 0 (Compare CEq 2 1 (fun b => Done b))).
(** What first < last says: whether the range is not empty. *)
Definition nonempty : prog bool := Compare CLt 0 1 (fun b => Done b).
