(** What tuples of classes mean, and what zip, zip_with and unzip should do. *)
From Coq Require Import NArith ZArith Bool List.
From Verif Require Import Outcome Words Lifetime LifetimeSpec Api ApiSpec Tuple.
Import ListNotations.
Open Scope N_scope.

(** A class whose arguments never make the pattern that stands for the empty option. *)
Record whole {W} (C : cls W) (S : sem C) : Prop := {
  h_ctor : forall i r w, post (stops S) (ctor C i r w)
    (fun p => ok S (fst p) /\ denotes S i (val S (fst p)) /\ cnt S (snd p) = (cnt S w + own S (fst p))%Z)
    (fun p => cnt S (snd p) = cnt S w);
  h_asgn : forall i r w, ok S r -> post (stops S) (asgn C i r w)
    (fun p => ok S (fst p) /\ denotes S i (val S (fst p)) /\ (cnt S (snd p) + own S r = cnt S w + own S (fst p))%Z)
    (fun p => ok S (fst p) /\ (cnt S (snd p) + own S r = cnt S w + own S (fst p))%Z)
}.

Definition unit_sem {W} (count : W -> Z) : sem (unit_cls (W := W)) := {|
  V := unit : Type;
  ok := fun _ : raw (unit_cls (W := W)) => True;
  val := fun _ : raw (unit_cls (W := W)) => tt;
  denotes := fun (_ : init (unit_cls (W := W))) _ => True;
  mv := fun _ _ => True;
  selfmv := fun _ _ => True;
  own := fun _ : raw (unit_cls (W := W)) => 0%Z;
  cnt := count;
  stops := False
|}.

Definition cons_sem {W} (sh : shape) (C D : cls W) (S : sem C) (T : sem D) : sem (cons_cls sh C D) := {|
  V := (V S * V T)%type;
  ok := fun r : raw (cons_cls sh C D) => ok S (fst r) /\ ok T (snd r);
  val := fun r : raw (cons_cls sh C D) => (val S (fst r), val T (snd r));
  denotes := fun (i : init (cons_cls sh C D)) v => denotes S (fst i) (fst v) /\ denotes T (snd i) (snd v);
  mv := fun v v' => mv S (fst v) (fst v') /\ mv T (snd v) (snd v');
  selfmv := fun v v' => selfmv S (fst v) (fst v') /\ selfmv T (snd v) (snd v');
  own := fun r : raw (cons_cls sh C D) => (own S (fst r) + own T (snd r))%Z;
  cnt := cnt T;
  stops := stops S \/ stops T
|}.

Section Lists.
Context {W : Type} (count : W -> Z) (sh : shape).

Fixpoint sems (Cs : list (cls W)) : Type :=
  match Cs with
  | [] => unit
  | C :: Cs => (sem C * sems Cs)%type
  end.

Fixpoint tuple_sem (Cs : list (cls W)) : sems Cs -> sem (tuple_cls sh Cs) :=
  match Cs return sems Cs -> sem (tuple_cls sh Cs) with
  | [] => fun _ => unit_sem count
  | C :: Cs => fun Ss => cons_sem sh C (tuple_cls sh Cs) (fst Ss) (tuple_sem Cs (snd Ss))
  end.

(** Every element meets [P] and counts with [count]. *)
Fixpoint every (P : forall C : cls W, sem C -> Prop) (Cs : list (cls W)) : sems Cs -> Prop :=
  match Cs return sems Cs -> Prop with
  | [] => fun _ => True
  | C :: Cs => fun Ss => P C (fst Ss) /\ every P Cs (snd Ss)
  end.
Definition element (C : cls W) (S : sem C) : Prop := lawful C S /\ whole C S /\ forall w, cnt S w = count w.

(** The operands of zip. *)
Fixpoint invs (Cs : list (cls W)) : sems Cs -> cells Cs -> Prop :=
  match Cs return sems Cs -> cells Cs -> Prop with
  | [] => fun _ _ => True
  | C :: Cs => fun Ss cs => inv C (fst Ss) (fst cs) /\ invs Cs (snd Ss) (snd cs)
  end.
Fixpoint all_alive (Cs : list (cls W)) : cells Cs -> bool :=
  match Cs return cells Cs -> bool with
  | [] => fun _ => true
  | C :: Cs => fun cs => c_alive (fst cs) && all_alive Cs (snd cs)
  end.
Fixpoint oowns (Cs : list (cls W)) : sems Cs -> cells Cs -> Z :=
  match Cs return sems Cs -> cells Cs -> Z with
  | [] => fun _ _ => 0%Z
  | C :: Cs => fun Ss cs => (oown C (fst Ss) (fst cs) + oowns Cs (snd Ss) (snd cs))%Z
  end.
(** Which operands are engaged. *)
Fixpoint engaged (Cs : list (cls W)) : cells Cs -> list bool :=
  match Cs return cells Cs -> list bool with
  | [] => fun _ => []
  | C :: Cs => fun cs => c_alive (fst cs) :: engaged Cs (snd cs)
  end.

(** A tuple of options as a class. *)
Fixpoint osems (Cs : list (cls W)) : sems Cs -> sems (opts Cs) :=
  match Cs return sems Cs -> sems (opts Cs) with
  | [] => fun _ => tt
  | C :: Cs => fun Ss => (opt_sem C (fst Ss), osems Cs (snd Ss))
  end.

(** The values of the operands. *)
Fixpoint ovals (Cs : list (cls W)) : forall Ss : sems Cs, cells Cs -> V (tuple_sem (opts Cs) (osems Cs Ss)) :=
  match Cs return forall Ss : sems Cs, cells Cs -> V (tuple_sem (opts Cs) (osems Cs Ss)) with
  | [] => fun _ _ => tt
  | C :: Cs => fun Ss cs => (oval C (fst Ss) (fst cs), ovals Cs (snd Ss) (snd cs))
  end.

(** All or nothing, and back. *)
Fixpoint sequence (Cs : list (cls W)) : forall Ss : sems Cs,
    V (tuple_sem (opts Cs) (osems Cs Ss)) -> option (V (tuple_sem Cs Ss)) :=
  match Cs return forall Ss : sems Cs, V (tuple_sem (opts Cs) (osems Cs Ss)) -> option (V (tuple_sem Cs Ss)) with
  | [] => fun _ _ => Some tt
  | C :: Cs => fun Ss os =>
      match fst os, sequence Cs (snd Ss) (snd os) with
      | Some v, Some vs => Some (v, vs)
      | _, _ => None
      end
  end.
Fixpoint distribute (Cs : list (cls W)) : forall Ss : sems Cs,
    option (V (tuple_sem Cs Ss)) -> V (tuple_sem (opts Cs) (osems Cs Ss)) :=
  match Cs return forall Ss : sems Cs, option (V (tuple_sem Cs Ss)) -> V (tuple_sem (opts Cs) (osems Cs Ss)) with
  | [] => fun _ _ => tt
  | C :: Cs => fun Ss o => (option_map fst o, distribute Cs (snd Ss) (option_map snd o))
  end.

(** What passing the elements leaves in them, each lvalue or rvalue. *)
Fixpoint lefts (Cs : list (cls W)) : forall Ss : sems Cs, list pass -> V (tuple_sem Cs Ss) -> V (tuple_sem Cs Ss) -> Prop :=
  match Cs return forall Ss : sems Cs, list pass -> V (tuple_sem Cs Ss) -> V (tuple_sem Cs Ss) -> Prop with
  | [] => fun _ _ _ _ => True
  | C :: Cs => fun Ss ps v v' => left_by (fst Ss) (hd ByCopy ps) (fst v) (fst v') /\ lefts Cs (snd Ss) (tl ps) (snd v) (snd v')
  end.

(** The contained objects, as a tuple. *)
Fixpoint roks (Cs : list (cls W)) : sems Cs -> raws Cs -> Prop :=
  match Cs return sems Cs -> raws Cs -> Prop with
  | [] => fun _ _ => True
  | C :: Cs => fun Ss rs => ok (fst Ss) (fst rs) /\ roks Cs (snd Ss) (snd rs)
  end.
Fixpoint rvals (Cs : list (cls W)) : forall Ss : sems Cs, raws Cs -> V (tuple_sem Cs Ss) :=
  match Cs return forall Ss : sems Cs, raws Cs -> V (tuple_sem Cs Ss) with
  | [] => fun _ _ => tt
  | C :: Cs => fun Ss rs => (val (fst Ss) (fst rs), rvals Cs (snd Ss) (snd rs))
  end.
Fixpoint rowns (Cs : list (cls W)) : sems Cs -> raws Cs -> Z :=
  match Cs return sems Cs -> raws Cs -> Z with
  | [] => fun _ _ => 0%Z
  | C :: Cs => fun Ss rs => (own (fst Ss) (fst rs) + rowns Cs (snd Ss) (snd rs))%Z
  end.
Fixpoint raws_of (Cs : list (cls W)) : cells Cs -> raws Cs :=
  match Cs return cells Cs -> raws Cs with
  | [] => fun _ => tt
  | C :: Cs => fun cs => (c_raw (fst cs), raws_of Cs (snd cs))
  end.

(** A function of all the contained objects that makes an object of class D: the old values, the
    result, the values left behind. *)
Definition makes_from (Cs : list (cls W)) (Ss : sems Cs) (D : cls W) (T : sem D)
  (f : raw D -> raws Cs * W -> out (raw D * (raws Cs * W)))
  (R : V (tuple_sem Cs Ss) -> V T -> V (tuple_sem Cs Ss) -> Prop) : Prop :=
  forall d rs w, roks Cs Ss rs -> post (stops (tuple_sem Cs Ss) \/ stops T) (f d (rs, w))
    (fun p => ok T (fst p) /\ roks Cs Ss (fst (snd p)) /\ R (rvals Cs Ss rs) (val T (fst p)) (rvals Cs Ss (fst (snd p))) /\
              (count (snd (snd p)) + rowns Cs Ss rs = count w + own T (fst p) + rowns Cs Ss (fst (snd p)))%Z)
    (fun p => roks Cs Ss (fst (snd p)) /\
              (count (snd (snd p)) + rowns Cs Ss rs = count w + rowns Cs Ss (fst (snd p)))%Z).

(** A function of all the contained objects that returns nothing. *)
Definition touches (Cs : list (cls W)) (Ss : sems Cs) (f : raws Cs * W -> out (raws Cs * W))
  (R : V (tuple_sem Cs Ss) -> V (tuple_sem Cs Ss) -> Prop) : Prop :=
  forall rs w, roks Cs Ss rs -> post (stops (tuple_sem Cs Ss)) (f (rs, w))
    (fun p => roks Cs Ss (fst p) /\ R (rvals Cs Ss rs) (rvals Cs Ss (fst p)) /\
              (count (snd p) + rowns Cs Ss rs = count w + rowns Cs Ss (fst p))%Z)
    (fun p => roks Cs Ss (fst p) /\ (count (snd p) + rowns Cs Ss rs = count w + rowns Cs Ss (fst p))%Z).
End Lists.

(** Some element of a tuple of optionals is empty; all are. *)
Section Empty.
Context {W : Type} (count : W -> Z) (sh : shape).
Fixpoint some_none (Cs : list (cls W)) : forall Ss : sems Cs, V (tuple_sem count sh (opts Cs) (osems Cs Ss)) -> Prop :=
  match Cs return forall Ss : sems Cs, V (tuple_sem count sh (opts Cs) (osems Cs Ss)) -> Prop with
  | [] => fun _ _ => False
  | C :: Cs => fun Ss os => fst os = None \/ some_none Cs (snd Ss) (snd os)
  end.
Fixpoint all_none (Cs : list (cls W)) : forall Ss : sems Cs, V (tuple_sem count sh (opts Cs) (osems Cs Ss)) -> Prop :=
  match Cs return forall Ss : sems Cs, V (tuple_sem count sh (opts Cs) (osems Cs Ss)) -> Prop with
  | [] => fun _ _ => True
  | C :: Cs => fun Ss os => fst os = None /\ all_none Cs (snd Ss) (snd os)
  end.

(** A tuple of options, taken apart. *)
Fixpoint as_cells (Cs : list (cls W)) : raw (tuple_cls sh (opts Cs)) -> cells Cs :=
  match Cs return raw (tuple_cls sh (opts Cs)) -> cells Cs with
  | [] => fun _ => tt
  | C :: Cs => fun r => (fst r, as_cells Cs (snd r))
  end.
End Empty.

(** The level kept in element k of a tuple, and the tuple with that level written. *)
Section Carrier.
Context {W : Type} (sh : shape).
Fixpoint level_in (k : nat) (Cs : list (cls W)) : raw (tuple_cls sh Cs) -> N :=
  match Cs return raw (tuple_cls sh Cs) -> N with
  | [] => fun _ => 0
  | C :: Cs => match k with
               | O => fun r => lget C (fst r)
               | S k => fun r => level_in k Cs (snd r)
               end
  end.
Fixpoint with_level (k : nat) (l : N) (Cs : list (cls W)) : raw (tuple_cls sh Cs) -> raw (tuple_cls sh Cs) :=
  match Cs return raw (tuple_cls sh Cs) -> raw (tuple_cls sh Cs) with
  | [] => fun r => r
  | C :: Cs => match k with
               | O => fun r => (lset C l (fst r), snd r)
               | S k => fun r => (fst r, with_level k l Cs (snd r))
               end
  end.
(** Element k has most levels, and is the first that does. *)
Definition first_most (k : nat) (Cs : list (cls W)) : Prop :=
  (k < length Cs)%nat /\
  (forall j, lmax (nth j Cs unit_cls) <= lmax (nth k Cs unit_cls)) /\
  (forall j, (j < k)%nat -> lmax (nth j Cs unit_cls) < lmax (nth k Cs unit_cls)).
End Carrier.
