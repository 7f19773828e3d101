(** What a program may expect of the iterators and const iterators of one range of values. *)
From Coq Require Import NArith ZArith Bool List.
From Verif Require Import Outcome IterProg IterProgSpec MixIter.
Import ListNotations.
Open Scope Z_scope.

(** A range with the values [l]; an iterator of either kind is a position. *)
Definition value_at (l : list Z) (x : Z) : option Z := if x <? 0 then None else nth_error l (Z.to_nat x).
Definition with_value (l : list Z) (x : Z) (v : Z) : list Z := firstn (Z.to_nat x) l ++ v :: skipn (S (Z.to_nat x)) l.

Fixpoint expected {R} (p : mprog R) (its : list Z) (l : list Z) : res (R * list Z) :=
  match p with
  | MDone r => Ok (r, l)
  | MMove m i k => made its i (fun x => position (Z.of_nat (length l)) (target m x) (fun y =>
      expected k (its ++ (if old_too m then [x; y] else [y])) l))
  | MConst i k => made its i (fun x => expected k (its ++ [x]) l)
  | MAssign i j k => made its j (fun y => expected k (firstn i its ++ y :: skipn (S i) its) l)
  | MDistance i j k => made its i (fun x => made its j (fun y => expected (k (x - y)) its l))
  | MCompare c i j k => made its i (fun x => made its j (fun y => expected (k (answer c x y)) its l))
  | MRead i k => made its i (fun x => match value_at l x with Some v => expected (k v) its l | None => UB end)
  | MWrite i v k => made its i (fun x => match value_at l x with Some _ => expected k its (with_value l x v) | None => UB end)
  end.

(** The program answers the same and leaves the same value in the object [o] and all other objects as they were;
    or both are undefined. *)
Definition matches {R} (o : N) (h : memory) (got : res (R * memory)) (want : res (R * list Z)) : Prop :=
  match got, want with
  | Ok (r, h'), Ok (r', l) => r = r' /\ l = [h' o] /\ forall x, x <> o -> h' x = h x
  | UB, UB => True
  | _, _ => False
  end.

(** As [only_looks], for both kinds of iterators: conversions and assignments are allowed too. *)
Fixpoint only_compares {R} (p : mprog R) : Prop :=
  match p with
  | MDone _ => True
  | MConst _ k | MAssign _ _ k => only_compares k
  | MDistance _ _ k => only_compares (k 0)
  | MCompare CEq _ _ k | MCompare CLe _ _ k | MCompare CGe _ _ k => only_compares (k true)
  | MCompare CNe _ _ k => only_compares (k false)
  | _ => False
  end.

(** Uses only the const iterators. *)
Fixpoint never_writes {R} (p : mprog R) : Prop :=
  match p with
  | MDone _ => True
  | MMove _ _ k | MConst _ k | MAssign _ _ k => never_writes k
  | MDistance _ _ k => forall n, never_writes (k n)
  | MCompare _ _ _ k => forall x, never_writes (k x)
  | MRead _ k => forall v, never_writes (k v)
  | MWrite _ _ _ => False
  end.

(** [container.reqmts]: in i == j, i != j, i < j, i <= j, i >= j, i > j and i - j either or both may be replaced
    by a const_iterator. *)
Definition mixes (g : rules) (t : elem) : Prop :=
  forall l r, In l [iterator t; const_iterator t] -> In r [iterator t; const_iterator t] ->
    (forall c, resolve g c l r <> None) /\ subtracts l r = true.
