(** What it means that a function that only reads does what its code equivalent does. *)
From Coq Require Import NArith List.
From Verif Require Import Outcome RefOpt DocLang.
Open Scope N_scope.

(** A function that reads only: the same result, the same end. *)
Definition reads {A S} (s : S) (m : res A) (n : step S A) : Prop :=
  match m, n with
  | Ok a, Got b t => a = b /\ t = s
  | Verify, Stopped => True
  | UB, Wrong => True
  | _, _ => False
  end.

(** A pointer and the number that stands for it. *)
Definition is_pointer (p : ptr) (o : option N) : Prop := match o with Some a => p = a /\ a <> 0 | None => p = 0 end.

(** The element of a type that occurs once. *)
Definition only_at (t : nat) (ts : list nat) (i : nat) : Prop := nth_error ts i = Some t /\ forall j, nth_error ts j = Some t -> j = i.

