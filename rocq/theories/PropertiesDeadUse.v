(** Property C17, the other side: the model calls it undefined if the object of an engaged option is used although it does not
    live, so that "nothing undefined happens" says something. *)
From Coq Require Import NArith Bool List.
From Verif Require Import Outcome Words Lifetime LifetimeSpec History Classes DeadUse.
Import ListNotations.
Open Scope N_scope.

Theorem C17_dead_use : forall W (C : cls W) (Sm : sem C) (l : vars C) w x c,
  slot l x = Some c -> o_has C c = Ok true -> c_alive c = false ->
  (forall f fr, step C Sm (Update x f fr) l w = SUndef) /\
  (forall y d, slot l y = Some d -> step C Sm (EmplaceFrom y x) l w = SUndef /\ step C Sm (SetFrom y x) l w = SUndef) /\
  (td C = false -> step C Sm (Destroy x) l w = SUndef /\ step C Sm (Reset x) l w = SUndef) /\
  (forall y g, tcc C = false -> lmax C = 0 -> free l y = true -> step C Sm (NewCopy y x g) l w = SUndef).
Proof. exact dead_use. Qed.
Print Assumptions C17_dead_use.
Example C17_dead_use_ex :
  let c : cell (fussy 0 false) := mkcell (5 : raw (fussy 0 false)) 1 false in let l : vars (fussy 0 false) := [Some c; None] in
  slot l 0 = Some c /\ o_has (fussy 0 false) c = Ok true /\ c_alive c = false /\ free l 1 = true /\
  step (fussy 0 false) (fussy_sem 0 false) (Destroy 0) l [] = SUndef.
Proof. repeat split. Qed.

(** Constructing over an object that lives and has a destructor. *)
Theorem C17_leak_seen : forall W (C : cls W) (mk : raw C -> W -> out (raw C * W)) c w,
  c_alive c = true -> td C = false -> o_construct C mk c w = Undef.
Proof. exact leak_seen. Qed.
Print Assumptions C17_leak_seen.
Example C17_leak_seen_ex : o_construct (fussy 0 false) (fun r w => Ret (r, w)) (mkcell (5 : raw (fussy 0 false)) 1 true) ([] : schedule) = Undef /\
  o_construct (fussy 0 false) (fun r w => Ret (r, w)) (mkcell (5 : raw (fussy 0 false)) 0 false) ([] : schedule) <> Undef.
Proof. split; [reflexivity|discriminate]. Qed.

(** Assignments to it and from it, and moves. *)
Theorem C17_dead_assign : forall W (C : cls W) (Sm : sem C) (l : vars C) w x c,
  slot l x = Some c -> o_has C c = Ok true -> c_alive c = false -> td C = false ->
  (forall i, scalar C = false -> step C Sm (Assign x i) l w = SUndef) /\
  (forall y d b, slot l y = Some d -> o_has C d = Ok b ->
     step C Sm (CopyAssign x y) l w = SUndef /\ step C Sm (CopyAssign y x) l w = SUndef /\
     step C Sm (MoveAssign x y) l w = SUndef /\ step C Sm (MoveAssign y x) l w = SUndef) /\
  (forall y g, tmc C = false -> lmax C = 0 -> free l y = true -> step C Sm (NewMove y x g) l w = SUndef).
Proof. exact dead_assign. Qed.
Print Assumptions C17_dead_assign.
Example C17_dead_assign_ex :
  let c : cell (fussy 0 false) := mkcell (5 : raw (fussy 0 false)) 1 false in
  let d : cell (fussy 0 false) := mkcell (5 : raw (fussy 0 false)) 0 false in
  td (fussy 0 false) = false /\ scalar (fussy 0 false) = false /\ tmc (fussy 0 false) = false /\ o_has (fussy 0 false) d = Ok false /\
  step (fussy 0 false) (fussy_sem 0 false) (MoveAssign 1 0) [Some c; Some d] [] = SUndef.
Proof. repeat split. Qed.

(** swap, take and take_if. *)
Theorem C17_dead_swap : forall W (C : cls W) (Sm : sem C) (l : vars C) w x c,
  slot l x = Some c -> o_has C c = Ok true -> c_alive c = false ->
  (forall y d b, slot l y = Some d -> o_has C d = Ok b -> step C Sm (Swap x y) l w = SUndef /\ step C Sm (Swap y x) l w = SUndef) /\
  (forall nrvo p pr y g, free l y = true -> step C Sm (NewTakeIf nrvo p pr y x g) l w = SUndef) /\
  (forall nrvo y g, free l y = true -> td C = false -> lmax C = 0 -> step C Sm (NewTake nrvo y x g) l w = SUndef).
Proof. exact dead_swap. Qed.
Print Assumptions C17_dead_swap.
Example C17_dead_swap_ex :
  let c : cell (fussy 0 false) := mkcell (5 : raw (fussy 0 false)) 1 false in
  let d : cell (fussy 0 false) := mkcell (5 : raw (fussy 0 false)) 0 false in
  lmax (fussy 0 false) = 0 /\ step (fussy 0 false) (fussy_sem 0 false) (Swap 1 0) [Some c; Some d] [] = SUndef /\
  step (fussy 0 false) (fussy_sem 0 false) (NewTake true 1 0 d) [Some c; None] [] = SUndef.
Proof. repeat split. Qed.
