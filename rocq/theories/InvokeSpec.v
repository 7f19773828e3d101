(** INVOKE as the C++ standard defines it ([func.require] paragraph 1): C76. *)
From Coq Require Import Bool List Arith.
From Verif Require Import Invoke.
Import ListNotations.

Section Spec.
(** is_same or is_base_of. *)
Variable related : ity -> ity -> Prop.

(** INVOKE(f, t1, ..., tN) is the expression e. *)
Inductive stands_for : callee -> list ity -> expression -> Prop :=
  | Case1 c t1 ts : related c t1 ->
      stands_for (MemberFunction c) (t1 :: ts) (CallMember (Itself 0) (seq 1 (length ts)))
  | Case2 c x ts : ~ related c (Wrapper x) ->
      stands_for (MemberFunction c) (Wrapper x :: ts) (CallMember (Referred 0) (seq 1 (length ts)))
  | Case3 c t1 ts : ~ related c t1 -> (forall x, t1 <> Wrapper x) ->
      stands_for (MemberFunction c) (t1 :: ts) (CallMember (Pointee 0) (seq 1 (length ts)))
  | Case4 c t1 : related c t1 -> stands_for (DataMember c) [t1] (Member (Itself 0))
  | Case5 c x : ~ related c (Wrapper x) -> stands_for (DataMember c) [Wrapper x] (Member (Referred 0))
  | Case6 c t1 : ~ related c t1 -> (forall x, t1 <> Wrapper x) -> stands_for (DataMember c) [t1] (Member (Pointee 0))
  | Case7 f ts : (match f with Function => True | MemberFunction _ => ts = [] | DataMember _ => length ts <> 1 end) ->
      stands_for f ts (Call (seq 0 (length ts))).
End Spec.

(** The one call in which the two differ: a pointer to a member of reference_wrapper itself, or of a base of it. *)
Definition own_member (related : ity -> ity -> Prop) (f : callee) (ts : list ity) : Prop :=
  match f, ts with
  | MemberFunction c, Wrapper x :: _ => related c (Wrapper x)
  | DataMember c, [Wrapper x] => related c (Wrapper x)
  | _, _ => False
  end.
