(** What the attribute pure promises, and when the functions that carry it keep the promise. *)
From Coq Require Import List Bool Arith.
From Verif Require Import PureCalls.
Import ListNotations.

Section Memory.
Context {M : Type}.
Variable h : hooks M.

(** No hook writes. *)
Definition level_reads : Prop := forall o m, fst (level h o m) = m.
Definition container_reads : Prop :=
  forall o m, fst (size h o m) = m /\ (forall i, fst (index h o i m) = m) /\
              fst (front h o m) = m /\ fst (back h o m) = m.

(** Which hooks a function calls. *)
Definition on_option (f : func) : bool :=
  match f with At _ | AtFront | AtBack => false | _ => true end.

(** none and an option, with or without a value, compared as 0 and 0 or 1. *)
Definition in_order (r : relation) (s : side) (full : bool) : bool :=
  let x := if full then 1 else 0 in
  let (a, b) := match s with Left => (0, x) | Right => (x, 0) end in
  match r with
  | Eq => a =? b | Ne => negb (a =? b) | Lt => a <? b | Le => a <=? b | Gt => b <? a | Ge => b <=? a
  end.

(** Same memory, same output, and the same registers where they are used. *)
Definition alike (D : nat -> bool) (s t : state M) : Prop :=
  mem s = mem t /\ out s = out t /\ forall x, D x = false -> regs s x = regs t x.

Definition finishes (c : bool) (p : list (stmt M)) (s t : state M) : Prop := exec c h p s (Finished t).

End Memory.
