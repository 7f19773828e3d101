(** Programs over mathematical optionals: what each call of History.v should do to the values of
    the variables, without storage, flags, levels or object lifetimes. *)
From Coq Require Import NArith ZArith Bool List.
From Verif Require Import Outcome Words Lifetime LifetimeSpec History.
Import ListNotations.

Section Spec.
Context {W : Type} (C : cls W) (Sm : sem C).
Notation V := (V Sm).

(** Values of the variables: [None] undeclared, [Some None] empty, [Some (Some v)] holding v. *)
Definition avars : Type := list (option (option V)).

Definition at_ (a : avars) (x : nat) (o : option V) : Prop := nth_error a x = Some (Some o).
Definition free_ (a : avars) (x : nat) : Prop := nth_error a x = Some None.
Definition set_ (a : avars) (x : nat) (o : option V) : avars := put a x (Some o).

(** Both hold something or both are empty. *)
Definition same_state (o o' : option V) : Prop := o = None <-> o' = None.

(** Normal return. *)
Definition returns (o : call C Sm) (a a' : avars) : Prop :=
  match o with
  | New x i _ => free_ a x /\ exists v, odenotes C Sm i v /\ a' = set_ a x v
  | NewCopy x y _ => free_ a x /\ exists v, at_ a y v /\ a' = set_ a x v
  | NewMove x y _ => free_ a x /\ exists v v', at_ a y v /\ opt_rel (mv Sm) v v' /\ a' = set_ (set_ a y v') x v
  | NewTake _ x y _ => free_ a x /\ exists v, at_ a y v /\ a' = set_ (set_ a y None) x v
  | NewTakeIf _ _ pr x y _ => free_ a x /\
      ((at_ a y None /\ a' = set_ a x None) \/
       (exists v v', at_ a y (Some v) /\ pr v true v' /\ a' = set_ (set_ a y None) x (Some v')) \/
       (exists v v', at_ a y (Some v) /\ pr v false v' /\ a' = set_ (set_ a y (Some v')) x None))
  | Destroy x => exists v, at_ a x v /\ a' = put a x None
  | Assign x i => exists v v', at_ a x v /\ odenotes C Sm i v' /\ a' = set_ a x v'
  | CopyAssign x y => exists v v', at_ a x v /\ at_ a y v' /\ a' = set_ a x v'
  | MoveAssign x y =>
      (x = y /\ exists v v', at_ a x v /\ opt_rel (selfmv Sm) v v' /\ a' = set_ a x v') \/
      (x <> y /\ exists v0 v v', at_ a x v0 /\ at_ a y v /\ opt_rel (mv Sm) v v' /\ a' = set_ (set_ a y v') x v)
  | Reset x => exists v, at_ a x v /\ a' = set_ a x None
  | Emplace x i => exists v v', at_ a x v /\ denotes Sm i v' /\ a' = set_ a x (Some v')
  | TryEmplace x i => (exists v, at_ a x (Some v) /\ a' = a) \/
      (at_ a x None /\ exists v', denotes Sm i v' /\ a' = set_ a x (Some v'))
  | EmplaceFrom x y | SetFrom x y => exists v v', at_ a x v /\ at_ a y (Some v') /\ a' = set_ a x (Some v')
  | Swap x y => exists v v', at_ a x v /\ at_ a y v' /\ a' = set_ (set_ a y v) x v'
  | Update x _ fr => exists v v', at_ a x (Some v) /\ fr v v' /\ a' = set_ a x (Some v')
  end.

(** An exception of T (or of the user's function) leaves the call. *)
Definition throws (o : call C Sm) (a a' : avars) : Prop :=
  match o with
  | New x _ _ | NewCopy x _ _ => free_ a x /\ a' = a
  | NewMove x y _ | NewTake true x y _ => free_ a x /\ exists v v', at_ a y (Some v) /\ a' = set_ a y (Some v')
  | NewTake false x y _ => free_ a x /\ exists v v', at_ a y (Some v) /\ a' = set_ a y v'
  | NewTakeIf nrvo _ _ x y _ => free_ a x /\
      exists v v', at_ a y (Some v) /\ (nrvo = true -> v' <> None) /\ a' = set_ a y v'
  | Destroy _ | Reset _ => False
  | Assign x _ => exists v v', at_ a x v /\ same_state v v' /\ a' = set_ a x v'
  | CopyAssign x y => exists v v' s, at_ a x v /\ at_ a y (Some s) /\ same_state v v' /\ a' = set_ a x v'
  | MoveAssign x y => exists v v' s s', at_ a x v /\ at_ a y (Some s) /\ same_state v v' /\
      (x = y -> v' = Some s') /\ a' = set_ (set_ a y (Some s')) x v'
  | Emplace x _ => exists v, at_ a x v /\ a' = set_ a x None
  | TryEmplace x _ => at_ a x None /\ a' = a
  | EmplaceFrom x y => exists v s, at_ a x v /\ at_ a y (Some s) /\ a' = set_ a x None
  | SetFrom x y => exists v v' s, at_ a x v /\ at_ a y (Some s) /\ same_state v v' /\ a' = set_ a x v'
  | Swap x y => exists v v' s s', at_ a x v /\ at_ a y s /\ same_state v v' /\ same_state s s' /\
      (x = y -> v' = s') /\ a' = set_ (set_ a y s') x v'
  | Update x _ _ => exists v v', at_ a x (Some v) /\ a' = set_ a x (Some v')
  end.

(** Calls that the library answers with a failed check: access to an empty option. *)
Definition misuse (o : call C Sm) (a : avars) : Prop :=
  match o with
  | Update x _ _ => at_ a x None
  | EmplaceFrom _ y | SetFrom _ y => at_ a y None
  | _ => False
  end.

(** A run of a program over values; [ks] says which calls threw. *)
Fixpoint runs (os : list (call C Sm)) (ks : list bool) (a a' : avars) : Prop :=
  match os, ks with
  | [], [] => a' = a
  | o :: os, k :: ks => exists a1, (if k then throws o a a1 else returns o a a1) /\ runs os ks a1 a'
  | _, _ => False
  end.

(** The user's functions respect the class, and no argument of emplace lives inside its target. *)
Definition fair (o : call C Sm) : Prop :=
  match o with
  | Update _ f fr => forall r w, ok Sm r -> post (stops Sm) (f r w)
      (fun p => ok Sm (fst p) /\ fr (val Sm r) (val Sm (fst p)) /\
                (cnt Sm (snd p) + own Sm r = cnt Sm w + own Sm (fst p))%Z)
      (fun p => ok Sm (fst p) /\ (cnt Sm (snd p) + own Sm r = cnt Sm w + own Sm (fst p))%Z)
  | NewTakeIf _ f pr _ _ _ => forall r w, ok Sm r -> post (stops Sm) (f r w)
      (fun p => ok Sm (fst p) /\ pr (val Sm r) (fst (snd p)) (val Sm (fst p)) /\
                (cnt Sm (snd (snd p)) + own Sm r = cnt Sm w + own Sm (fst p))%Z)
      (fun p => ok Sm (fst p) /\ (cnt Sm (snd (snd p)) + own Sm r = cnt Sm w + own Sm (fst p))%Z)
  | EmplaceFrom x y => x <> y
  | _ => True
  end.

(** The constructors of T that the call may use in storage that carries the emptiness of the option
    do not disturb it when they throw.  Trivial for options with a flag. *)
Definition gentle (o : call C Sm) : Prop :=
  match o with
  | New _ (IConv (Some i)) _ => quiet_init C i
  | Assign _ (IVal i) | Assign _ (IConv (Some i)) => quiet_init C i
  | Emplace _ i | TryEmplace _ i => quiet_init C i
  | NewCopy _ _ _ | CopyAssign _ _ | EmplaceFrom _ _ | SetFrom _ _ => quiet_copy C Sm
  | NewMove _ _ _ | NewTake _ _ _ _ | NewTakeIf _ _ _ _ _ _ | MoveAssign _ _ | Swap _ _ => quiet_move C Sm
  | New _ _ _ | Assign _ _ | Destroy _ | Reset _ | Update _ _ _ => True
  end.

(** The values of the variables of a state, and what they own together. *)
Definition values (l : vars C) : avars := map (option_map (oval C Sm)) l.

Definition slot_own (s : option (cell C)) : Z :=
  match s with Some c => oown C Sm c | None => 0%Z end.

Definition owned (l : vars C) : Z := fold_right (fun s z => (slot_own s + z)%Z) 0%Z l.

(** Every declared option is in a proper state. *)
Definition healthy (l : vars C) : Prop :=
  Forall (fun s => match s with Some c => inv C Sm c | None => True end) l.

End Spec.
