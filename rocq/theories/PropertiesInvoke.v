(** Property theorems about the library's own std::invoke: C76. *)
From Coq Require Import Bool List Arith.
From Verif Require Import Invoke InvokeSpec InvokeFacts.
Import ListNotations.

(** C76: every call chooses one overload, better than all others that accept the arguments. *)
Theorem C76_unambiguous : forall base_of wrapper_base f ts, exists o, chosen base_of wrapper_base f ts = Some o /\
  forall p, viable base_of wrapper_base p f ts = true -> p <> o -> better wrapper_base ts o p = true.
Proof. exact invoke_total. Qed.
Print Assumptions C76_unambiguous.

(** C76: it evaluates what the standard says, for every callable, any number of arguments and any classes, unless the
    member belongs to std::reference_wrapper itself. *)
Theorem C76_invoke : forall base_of wrapper_base f ts,
  let related := fun c t => c = t \/ base_of c t = true in
  ~ own_member related f ts ->
  forall e, invoke base_of wrapper_base f ts = Some e <-> stands_for related f ts e.
Proof. exact invoke_iff. Qed.
Print Assumptions C76_invoke.

(** In that case it does not: the member is looked for in the object referred to. *)
Theorem C76_own_member_exact : forall base_of wrapper_base f ts,
  let related := fun c t => c = t \/ base_of c t = true in
  own_member related f ts ->
  forall e e', invoke base_of wrapper_base f ts = Some e -> stands_for related f ts e' -> e <> e'.
Proof. exact invoke_own_member. Qed.
Print Assumptions C76_own_member_exact.

Theorem C76_own_member_refuted : exists f ts e,
  stands_for (fun c t => c = t \/ false = true) f ts e /\ invoke (fun _ _ => false) (fun _ => None) f ts <> Some e.
Proof.
  exists (MemberFunction (Wrapper (Named 0))), [Wrapper (Named 0)], (CallMember (Itself 0) []).
  split; [apply (Case1 _ _ _ []); left; reflexivity|discriminate].
Qed.
Print Assumptions C76_own_member_refuted.

(** Class 1 is derived from class 0, class 2 from std::reference_wrapper<class 0>. *)
Definition ex_base (c d : ity) : bool :=
  match c, d with
  | Named 0, Named 1 => true
  | Wrapper (Named 0), Named 2 => true
  | _, _ => false
  end.
Definition ex_wrapper (t : ity) : option ity := match t with Named 2 => Some (Named 0) | _ => None end.

Example C76_ex :
  let inv := invoke ex_base ex_wrapper in
  ~ own_member (fun c t => c = t \/ ex_base c t = true) (MemberFunction (Named 0)) [Wrapper (Named 1); Named 5] /\
  inv (MemberFunction (Named 0)) [Wrapper (Named 1); Named 5] = Some (CallMember (Referred 0) [1]) /\
  inv (MemberFunction (Named 0)) [Named 1; Named 5; Named 6] = Some (CallMember (Itself 0) [1; 2]) /\
  inv (MemberFunction (Named 0)) [Named 7] = Some (CallMember (Pointee 0) []) /\
  inv (MemberFunction (Named 0)) [Named 2] = Some (CallMember (Pointee 0) []) /\
  inv (MemberFunction (Wrapper (Named 0))) [Named 2] = Some (CallMember (Itself 0) []) /\
  inv (DataMember (Named 0)) [Named 0] = Some (Member (Itself 0)) /\
  inv (DataMember (Named 0)) [Wrapper (Named 0)] = Some (Member (Referred 0)) /\
  inv (DataMember (Named 0)) [Named 0; Named 0] = Some (Call [0; 1]) /\
  inv Function [Named 3; Wrapper (Named 4)] = Some (Call [0; 1]) /\ inv Function [] = Some (Call []).
Proof. split; [intros [E|E]; discriminate|]. repeat split. Qed.
