(** Which bytes a call reads and writes, and when two calls are in conflict ([intro.races]). *)
From Coq Require Import ZArith NArith List Bool.
From Verif Require Import Outcome Words Ints Types OptBytes TypesSpec Lifetime History ByteClass ByteProg ByteProgSpec.
Import ListNotations.
Open Scope nat_scope.

(** Regions: offset and length. *)
Definition region : Type := (nat * nat)%type.
Definition inside (i : nat) (r : list region) : Prop := exists o n, In (o, n) r /\ o <= i /\ i < o + n.
Definition moved (o : nat) (r : list region) : list region := map (fun '(a, n) => (o + a, n)) r.

(** The same bytes in both memories. *)
Definition alike (r : list region) (m m' : bytes) : Prop := forall o n, In (o, n) r -> slice o n m = slice o n m'.

(** Where the object at the end of a path lies in the variable. *)
Fixpoint start (p : path) (u : ty) : nat :=
  match p with
  | [] => 0
  | Deref :: p => match u with TOption t => start p t | _ => 0 end
  | Field i :: p => match field u i with Some (o, t) => o + start p t | None => 0 end
  end.

(** The bytes that hold the state of the options a path goes through: each dereference asks has_value(). *)
Fixpoint way (p : path) (u : ty) : list region :=
  match p with
  | [] => []
  | Deref :: p => match u with TOption t => touched u ++ way p t | _ => [] end
  | Field i :: p => match field u i with Some (o, t) => moved o (way p t) | None => [] end
  end.

Section Calls.
Context (env : list (nat * ty)).

Definition at_var (x : nat) (f : nat -> ty -> list region) : list region :=
  match nth_error env x with Some (o, u) => f o u | None => [] end.

Definition checks (p : place) : list region := at_var (fst p) (fun o u => moved o (way (snd p) u)).
(** All bytes of the object. *)
Definition object (p : place) : list region :=
  at_var (fst p) (fun o u => match ty_at (snd p) u with Some t => [(o + start (snd p) u, sizeof t)] | None => [] end).
(** The bytes that hold whether the option has a value: its flag, or bytes of the contained object. *)
Definition state (p : place) : list region :=
  at_var (fst p) (fun o u => match ty_at (snd p) u with Some t => moved (o + start (snd p) u) (touched t) | None => [] end).

Definition reads (o : op bytes) : list region :=
  match o with
  | ONew _ _ | OObj _ _ | OEnd _ => []
  | OCopy _ q | OTake _ q => checks q ++ object q
  | OReset p | OAssign p _ | OEmplace p _ | OTryEmplace p _ | OWrite p _ => checks p
  | OCopyAssign p q => checks p ++ checks q ++ object q
  | OSwap p q => checks p ++ checks q
  | OHas p => checks p ++ state p
  | OGet p => checks p ++ object p
  end.

Definition writes (o : op bytes) : list region :=
  match o with
  | ONew x _ | OObj x _ | OCopy x _ => object (x, [])
  | OTake x q => object (x, []) ++ object q
  | OReset p | OAssign p _ | OEmplace p _ | OTryEmplace p _ | OWrite p _ | OCopyAssign p _ => object p
  | OSwap p q => object p ++ object q
  | OEnd _ | OHas _ | OGet _ => []
  end.

(** A byte that one call writes and the other reads or writes. *)
Definition conflict (o o' : op bytes) : Prop :=
  exists i, (inside i (writes o) /\ inside i (reads o' ++ writes o')) \/ (inside i (writes o') /\ inside i (reads o)).

(** No calls of different threads are in conflict. *)
Definition race_free (ts : list (list (op bytes))) : Prop :=
  forall i j os os' o o', i <> j -> nth_error ts i = Some os -> nth_error ts j = Some os' -> In o os -> In o' os' ->
    ~ conflict o o'.

(** Everything the calls of a thread touch. *)
Definition footprint (os : list (op bytes)) : list region := flat_map (fun o => reads o ++ writes o) os.

(** The variables that a call names, and those among them that it may change. *)
Definition names (o : op bytes) : list nat :=
  match o with
  | ONew x _ | OObj x _ | OEnd x => [x]
  | OCopy x q | OTake x q => [x; fst q]
  | OReset p | OAssign p _ | OEmplace p _ | OTryEmplace p _ | OWrite p _ | OHas p | OGet p => [fst p]
  | OCopyAssign p q | OSwap p q => [fst p; fst q]
  end.
Definition changes (o : op bytes) : list nat :=
  match o with
  | ONew x _ | OObj x _ | OCopy x _ => [x]
  | OTake x q => [x; fst q]
  | OReset p | OAssign p _ | OEmplace p _ | OTryEmplace p _ | OWrite p _ | OCopyAssign p _ => [fst p]
  | OSwap p q => [fst p; fst q]
  | OEnd _ | OHas _ | OGet _ => []
  end.
End Calls.

(** Every call is well typed. *)
Definition all_typed (env : list (nat * ty)) (ts : list (list (op bytes))) : Prop :=
  forall i os, nth_error ts i = Some os -> Forall (typed env) os.

(** No thread changes a variable that another one names. *)
Definition separate (ts : list (list (op bytes))) : Prop :=
  forall i j os os' o o' x, i <> j -> nth_error ts i = Some os -> nth_error ts j = Some os' -> In o os -> In o' os' ->
    In x (changes o) -> ~ In x (names o').

(** A call that changes the object at p. *)
Definition on_member (p : place) (o : op bytes) : Prop :=
  match o with
  | OReset q | OAssign q _ | OEmplace q _ | OTryEmplace q _ | OWrite q _ => q = p
  | _ => False
  end.

(** How many calls of thread i a schedule contains. *)
Definition turns (i : nat) (sched : list nat) : nat := count_occ Nat.eq_dec sched i.
(** What thread i has seen. *)
Definition seen_by (i : nat) (tr : list (nat * obs)) : list obs :=
  map snd (filter (fun e => Nat.eqb (fst e) i) tr).
