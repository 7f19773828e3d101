(** Which specialisation should be used, said about the text before the first use. *)
From Coq Require Import Bool List.
From Verif Require Import Choice.
Import ListNotations.

(** No partial specialisation of the user matches; exactly this one matches. *)
Definition no_partial (pre : list event) (t : type) : Prop := forall p, In (Partial p) pre -> p t = false.
Definition one_partial (pre : list event) (t : type) (p : type -> bool) : Prop :=
  exists a b, pre = a ++ Partial p :: b /\ p t = true /\ no_partial a t /\ no_partial b t.
Definition selects (pre : list event) (t : type) (c : choice) : Prop :=
  match c with
  | ByUser => In (Explicit t) pre
  | ByHook => ~ In (Explicit t) pre /\ In (Hook t) pre /\ (exists n, t = Class n) /\ no_partial pre t
  | ByWrapper w => ~ In (Explicit t) pre /\ ~ In (Hook t) pre /\ (exists u, t = Wrapped w u) /\ no_partial pre t
  | ByPartial p => ~ In (Explicit t) pre /\ ~ In (Hook t) pre /\ (exists n, t = Class n) /\ one_partial pre t p
  | Builtin => ~ In (Explicit t) pre /\ ~ In (Hook t) pre /\ (exists n, t = Class n) /\ no_partial pre t
  end.
(** What may follow a text that compiles. *)
Definition fine (pre : list event) (e : event) : Prop :=
  match e with
  | Explicit t => ~ In (Explicit t) pre /\ ~ In (Use t) pre
  | Hook t => ~ In (Hook t) pre
  | Partial _ => True
  | Use t => In (Use t) pre \/ exists c, selects pre t c
  end.
