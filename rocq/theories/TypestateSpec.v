(** What a typestate says about an option, and when Clang's rules for members without annotation fit. *)
From Coq Require Import Bool Arith List.
From Verif Require Import Outcome Lifetime LifetimeSpec History HistorySpec Typestate.
Import ListNotations.

(** "Consumed" promises a value, "unconsumed" promises none. *)
Definition promises (s : tstate) (has : bool) : Prop :=
  match s with Unknown => True | Consumed => has = true | Unconsumed => has = false end.

(** Everything that is known about the declared variables is true. *)
Definition truthful {W} (C : cls W) (e : knowledge) (l : vars C) : Prop :=
  forall x c, slot l x = Some c -> exists h, o_has C c = Ok h /\ promises (e x) h.

Section Fits.
Context {W : Type} {C : cls W} {Sm : sem C}.

(** The object that a call changes or makes, with the annotation of the function. *)
Definition annotation (o : call C Sm) : option (nat * tstate) :=
  match o with
  | New x INone _ => Some (x, Unconsumed)
  | New x (IVal _) _ => Some (x, Consumed)
  | NewTake _ _ y _ => Some (y, Unconsumed)
  | Assign x INone => Some (x, Unconsumed)
  | Assign x (IVal _) => Some (x, Consumed)
  | Emplace x _ | EmplaceFrom x _ | TryEmplace x _ | SetFrom x _ => Some (x, Consumed)
  | _ => None
  end.

(** Calls after which Clang may still rely on "consumed": no reset, swap or take_if of an option with
    a known value, and no move from an option that is not known to have one. *)
Definition fits (e : knowledge) (o : call C Sm) : Prop :=
  match o with
  | Reset x | Swap x _ => e x <> Consumed
  | NewTakeIf _ _ _ _ y _ => e y <> Consumed
  | NewMove _ y _ => e y = Consumed
  | MoveAssign x y => x = y \/ e y = Consumed
  | _ => True
  end.

Fixpoint fitting (p : list (event C Sm)) (e : knowledge) : Prop :=
  match p with
  | [] => True
  | Do o k :: p => fits e o /\ fitting p (after true o k e)
  | Saw x b :: p => fitting p (know e x (tested b))
  end.

(** Only values are promised. *)
Definition hopeful (l : vars C) (e : knowledge) : Prop :=
  forall x c, slot l x = Some c -> e x = Consumed -> o_has C c = Ok true.

Definition calls (p : list (event C Sm)) (P : call C Sm -> Prop) : Prop :=
  Forall (fun v => match v with Do o _ => P o | Saw _ _ => True end) p.
End Fits.
