(** What a regular expression matches, and the names of functions. *)
From Coq Require Import Bool List Ascii String Lia.
From Verif Require Import PyText StepFilter.
Import ListNotations.

Definition times (k : count) (n : nat) : Prop :=
  match k with Once => n = 1 | Optional => n <= 1 | Repeated => True | Positive => 1 <= n end.
Definition of_atom (a : atom) (c : ascii) : Prop :=
  match a with Lit d => c = d | Dot => c <> "010"%char /\ c <> "013"%char end.
Inductive language : list piece -> text -> Prop :=
| language_end : language [] []
| language_piece a k ps u v : times k (List.length u) -> Forall (of_atom a) u -> language ps v -> language ((a, k) :: ps) (u ++ v).

(** How expressions are written. *)
Definition writes (p : piece) : text :=
  (match fst p with Lit c => [c] | Dot => txt "." end) ++
  (match snd p with Once => [] | Optional => txt "?" | Repeated => txt "*" | Positive => txt "+" end).
Definition proper (p : piece) : Prop := match fst p with Lit c => ~ In c (txt "^$\.*+?()[]{}|") | Dot => True end.

(** A part of a qualified name: a name without colons, perhaps with arguments; in one line. *)
Definition part (w : text) : Prop :=
  ~ In "010"%char w /\ ~ In "013"%char w /\
  exists i t, w = i ++ t /\ i <> [] /\ ~ In ":"%char i /\ (t = [] \/ exists r, t = "<"%char :: r).
Fixpoint qualified (ws : list text) : text :=
  match ws with [] => [] | [w] => w | w :: r => w ++ txt "::" ++ qualified r end.
