(** Properties C27, C31: access to an object that does not live is reported as undefined. *)
From Coq Require Import NArith Bool List.
From Verif Require Import Outcome Words Lifetime Api Reenter Tuple Classes DeadAccess.
Import ListNotations.
Open Scope N_scope.

Theorem C27_dead_access : forall W (C : cls W) (c : cell C), o_has C c = Ok true -> c_alive c = false ->
  a_get C c = Undef /\ a_value C c = Undef /\ a_get_unchecked C c = Undef /\
  (forall A (f : A -> raw C * W -> out (A * (raw C * W))) a w, with_get C f a (c, w) = Undef) /\
  (forall A (f : cell C * W -> out A) w, r_call C f (c, w) = Undef).
Proof. exact dead_access. Qed.
Print Assumptions C27_dead_access.
Example C27_dead_access_ex : let c : cell (fussy 0 false) := mkcell (5 : raw (fussy 0 false)) 1 false in
  o_has (fussy 0 false) c = Ok true /\ c_alive c = false /\ a_get (fussy 0 false) c = Undef.
Proof. repeat split. Qed.

Theorem C31_dead_operand : forall W (C : cls W) Cs A (k : A -> raws (C :: Cs) * W -> out (A * (raws (C :: Cs) * W))) a (c : cell C) cs w,
  o_has C c = Ok true -> c_alive c = false -> with_gets (C :: Cs) k a ((c, cs), w) = Undef.
Proof. exact dead_first. Qed.
Print Assumptions C31_dead_operand.
Example C31_dead_operand_ex : let c : cell (fussy 0 false) := mkcell (5 : raw (fussy 0 false)) 1 false in
  with_gets [fussy 0 false] (fun (a : nat) rw => Ret (a, rw)) 0%nat ((c, tt), []) = Undef.
Proof. reflexivity. Qed.
