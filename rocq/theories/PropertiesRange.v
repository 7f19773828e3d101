(** Properties of options as standard ranges (C77). *)
From Coq Require Import NArith ZArith Bool List.
From Verif Require Import Outcome Lifetime LifetimeSpec Classes ClassesFacts Observe Iter IterProg IterProgSpec IterProgFacts
  PropertiesObserve.
Import ListNotations.
Open Scope Z_scope.

(** C77: every program that uses the iterators of an engaged option as those of a range of one object gets
    what the standard promises, and is undefined only where the standard says so. *)
Theorem C77_engaged : forall W (C : cls W) (S : sem C), lawful C S -> forall o c, inv C S c -> c_alive c = true ->
  exists b e, begin_ o c = Ret b /\ end_ o c = Ret e /\
    forall R (p : prog R), run p [b; e] [] = promised 1 (fun _ => o) p [0; 1] [].
Proof. exact @range_engaged. Qed.
Print Assumptions C77_engaged.
Example C77_engaged_ex : run span [IAt 64 0; IAt 64 1] [] = Ok 1 /\ run next [IAt 64 0; IAt 64 1] [] = Ok true /\
  run nonempty [IAt 64 0; IAt 64 1] [] = Ok true /\
  run (ToAddress 0 (PStar 0 Done)) [IAt 64 0; IAt 64 1] [] = Ok 64%N /\
  run (Move PostInc 0 (Star 2 Done)) [IAt 64 0; IAt 64 1] [] = Ok 64%N /\
  run (Move PostInc 0 (Star 3 Done)) [IAt 64 0; IAt 64 1] [] = UB.
Proof. repeat split. Qed.

(** On an empty option the same holds for the programs that only compare with ==, !=, <=, >= or subtract; every
    other program that the standard allows fails a check. *)
Theorem C77_empty_exact : forall W (C : cls W) (S : sem C), lawful C S -> forall o c, inv C S c -> c_alive c = false ->
  exists b e, begin_ o c = Ret b /\ end_ o c = Ret e /\
    forall R (p : prog R) object,
      (only_looks p -> run p [b; e] [] = promised 0 object p [0; 0] []) /\
      (~ only_looks p -> forall r, promised 0 object p [0; 0] [] = Ok r -> run p [b; e] [] = Verify).
Proof. exact @range_empty. Qed.
Print Assumptions C77_empty_exact.
Example C77_empty_ex : inv (fussy 3 false) (fussy_sem 3 false) no34 /\ only_looks (Distance 1 0 (fun n => Done n)) /\
  run (Distance 1 0 (fun n => Done n)) [INull; INull] [] = Ok 0 /\ ~ only_looks span.
Proof. split; [ exact no34_inv | ]. repeat split. exact (fun H => H). Qed.

(** std::span of an empty option, std::ranges::next to its end and first < last. *)
Theorem C77_empty_refuted : forall object,
  (promised 0 object span [0; 0] [] = Ok 0 /\ run span [INull; INull] [] = Verify) /\
  (promised 0 object next [0; 0] [] = Ok true /\ run next [INull; INull] [] = Verify) /\
  (promised 0 object nonempty [0; 0] [] = Ok false /\ run nonempty [INull; INull] [] = Verify).
Proof. exact empty_programs. Qed.
Print Assumptions C77_empty_refuted.

(** docs/reference.md: end() is equivalent to begin() + has_value().  True exactly for engaged options. *)
Theorem C77_end_exact : forall W (C : cls W) (S : sem C), lawful C S -> forall o c, inv C S c ->
  exists b e, begin_ o c = Ret b /\ end_ o c = Ret e /\
    (it_add b (if c_alive c then 1 else 0) = Ok e <-> c_alive c = true).
Proof. exact @end_documented. Qed.
Print Assumptions C77_end_exact.
Theorem C77_end_refuted : exists (c : cell (fussy 3 false)) b, inv (fussy 3 false) (fussy_sem 3 false) c /\
  begin_ 64 c = Ret b /\ end_ 64 c = Ret b /\ it_add b 0 = Verify.
Proof. exact (ex_intro _ no34 (ex_intro _ INull (conj no34_inv (conj eq_refl (conj eq_refl eq_refl))))). Qed.
Print Assumptions C77_end_refuted.
