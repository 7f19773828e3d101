(** What it means that zip and zip_with do what their code equivalents do: lists of classes of the model beside
    lists of classes as the documentation sees them. *)
From Coq Require Import ZArith List Bool.
From Verif Require Import Outcome Lifetime LifetimeSpec Api Tuple TupleSpec DocLang DocSnippets DocSpec DocTuple.
Import ListNotations.
Open Scope list_scope.

Record item {W : Type} : Type := mkitem {
  i_cls : cls W; i_sem : sem i_cls; i_doc : dcls W;
  i_rel : raw i_cls -> obj i_doc -> Prop; i_arg : init i_cls -> darg i_doc -> Prop }.
Arguments item W : clear implicits.
Arguments mkitem {W} i_cls i_sem i_doc i_rel i_arg.

Section Items.
Context {W : Type} (count : W -> Z).

(** The class obeys the rules of classes, and the two sides are the same. *)
Definition good (t : item W) : Prop :=
  element count (i_cls t) (i_sem t) /\ same (i_cls t) (i_sem t) (i_doc t) (i_rel t) (i_arg t).

Notation Cs l := (map i_cls l).
Notation As l := (map i_doc l).

Fixpoint isems (l : list (item W)) : sems (Cs l) :=
  match l return sems (Cs l) with
  | [] => tt
  | t :: l => (i_sem t, isems l)
  end.
(** The options, the contained objects, and tuples. *)
Fixpoint options_rel (l : list (item W)) : cells (Cs l) -> options (As l) -> Prop :=
  match l return cells (Cs l) -> options (As l) -> Prop with
  | [] => fun _ _ => True
  | t :: l => fun cs os => orel (i_sem t) (i_rel t) (fst cs) (fst os) /\ options_rel l (snd cs) (snd os)
  end.
Fixpoint objects_rel (l : list (item W)) : raws (Cs l) -> objects (As l) -> Prop :=
  match l return raws (Cs l) -> objects (As l) -> Prop with
  | [] => fun _ _ => True
  | t :: l => fun rs xs => i_rel t (fst rs) (fst xs) /\ objects_rel l (snd rs) (snd xs)
  end.
Fixpoint tuple_rel (sh : shape) (l : list (item W)) : raw (tuple_cls sh (Cs l)) -> obj (doc_tuple (tail_first sh) (As l)) -> Prop :=
  match l return raw (tuple_cls sh (Cs l)) -> obj (doc_tuple (tail_first sh) (As l)) -> Prop with
  | [] => fun _ _ => True
  | t :: l => fun r x => i_rel t (fst r) (fst x) /\ tuple_rel sh l (snd r) (snd x)
  end.
Fixpoint tuple_arg (sh : shape) (l : list (item W)) : init (tuple_cls sh (Cs l)) -> darg (doc_tuple (tail_first sh) (As l)) -> Prop :=
  match l return init (tuple_cls sh (Cs l)) -> darg (doc_tuple (tail_first sh) (As l)) -> Prop with
  | [] => fun _ _ => True
  | t :: l => fun i j => i_arg t (fst i) (fst j) /\ tuple_arg sh l (snd i) (snd j)
  end.

(** The same function of the contained objects; it may change them. *)
Definition same_function (l : list (item W)) (D : cls W) (B : dcls W) (R : raw D -> obj B -> Prop)
  (f : raw D -> raws (Cs l) * W -> out (raw D * (raws (Cs l) * W))) (g : objects (As l) * W -> step (objects (As l) * W) (obj B)) : Prop :=
  forall r rs xs w, objects_rel l rs xs ->
    agree (fun p y q => R (fst p) y /\ objects_rel l (fst (snd p)) (fst q) /\ snd (snd p) = snd q)
          (fun p q => objects_rel l (fst (snd p)) (fst q) /\ snd (snd p) = snd q) (f r (rs, w)) (g (xs, w)).

(** The option that is returned, and the operands as they are afterwards. *)
Definition zipped (l : list (item W)) {D : cls W} (S : sem D) {B : dcls W} (R : raw D -> obj B -> Prop)
  (p : cell D * (cells (Cs l) * W)) (o : option (obj B)) (q : options (As l) * W) : Prop :=
  orel S R (fst p) o /\ options_rel l (fst (snd p)) (fst q) /\ snd (snd p) = snd q.
Definition zip_thrown (l : list (item W)) {D : cls W} (p : cell D * (cells (Cs l) * W)) (q : options (As l) * W) : Prop :=
  options_rel l (fst (snd p)) (fst q) /\ snd (snd p) = snd q.
End Items.
