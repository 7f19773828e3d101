(** Two classes as their users see them, the examples for the code equivalents: numbers whose functions may throw, and
    plain numbers. *)
From Coq Require Import NArith Bool List.
From Verif Require Import Outcome Lifetime LifetimeSpec Classes DocLang DocSnippets DocSpec.
Import ListNotations.
Open Scope N_scope.

Definition fails {S A} (s : schedule) (bad : schedule -> S) (good : schedule -> step S A) : step S A :=
  let (b, w) := tick s in if b then Thrown (bad w) else good w.

(** The class [fussy]: a moved-from object is zero. *)
Definition fussy_doc : dcls schedule := {|
  obj := N;
  darg := N;
  d_make := fun i w => fails w id (Got i);
  d_copy := fun a w => fails w id (Got a);
  d_move := fun s => fails (snd s) (pair (fst s)) (fun w => Got (fst s) (0, w));
  d_assign := fun i s => fails (snd s) (pair (fst s)) (fun w => Got tt (i, w));
  d_cassign := fun a s => fails (snd s) (pair (fst s)) (fun w => Got tt (a, w));
  d_massign := fun s => let '(b, (a, w)) := s in fails w (fun w => (b, (a, w))) (fun w => Got tt (a, (0, w)));
  d_swap := fun s => let '(b, (a, w)) := s in fails w (fun w => (b, (a, w))) (fun w => Got tt (a, (b, w)));
  d_destroy := fun _ w => Got tt w
|}.
Definition fussy_is (m : N) (torn : bool) (r : raw (fussy m torn)) (a : obj fussy_doc) : Prop := r = a + m.
Definition fussy_arg (m : N) (torn : bool) (i : init (fussy m torn)) (j : darg fussy_doc) : Prop := i = j.

(** The class [plain]: numbers, of which zero is unused if m is not zero. *)
Definition plain_doc : dcls unit := {|
  obj := N;
  darg := N;
  d_make := fun i w => Got i w;
  d_copy := fun a w => Got a w;
  d_move := fun s => Got (fst s) s;
  d_assign := fun i s => Got tt (i, snd s);
  d_cassign := fun a s => Got tt (a, snd s);
  d_massign := fun s => Got tt (fst (snd s), snd s);
  d_swap := fun s => let '(b, (a, w)) := s in Got tt (a, (b, w));
  d_destroy := fun _ w => Got tt w
|}.
Definition plain_is (m : N) (r : raw (plain m)) (a : obj plain_doc) : Prop := r = a /\ (m <> 0 -> a <> 0).
Definition plain_arg (m : N) (i : init (plain m)) (j : darg plain_doc) : Prop := i = j /\ (m <> 0 -> j <> 0).
