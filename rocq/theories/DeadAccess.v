(** Access to an object that does not live: get(), the callbacks and the zips report it. *)
From Coq Require Import NArith Bool List.
From Verif Require Import Outcome Words Lifetime Api Reenter Tuple Classes.
Import ListNotations.
Open Scope N_scope.

Lemma dead_access W (C : cls W) (c : cell C) : o_has C c = Ok true -> c_alive c = false ->
  a_get C c = Undef /\ a_value C c = Undef /\ a_get_unchecked C c = Undef /\
  (forall A (f : A -> raw C * W -> out (A * (raw C * W))) a w, with_get C f a (c, w) = Undef) /\
  (forall A (f : cell C * W -> out A) w, r_call C f (c, w) = Undef).
Proof.
  intros H D. unfold a_value, a_get, a_get_unchecked, with_get, r_call. cbn [fst]. rewrite H. cbn [check]. rewrite D. now repeat split.
Qed.
Lemma dead_first W (C : cls W) Cs A (k : A -> raws (C :: Cs) * W -> out (A * (raws (C :: Cs) * W))) a (c : cell C) cs w :
  o_has C c = Ok true -> c_alive c = false -> with_gets (C :: Cs) k a ((c, cs), w) = Undef.
Proof. intros H D. cbn [with_gets]. rewrite H. cbn [check]. now rewrite D. Qed.
