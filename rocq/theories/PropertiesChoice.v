(** Property C104: the specialisation of option_traits that is used. *)
From Coq Require Import Bool List Permutation.
From Verif Require Import Choice ChoiceSpec ChoiceFacts.
Import ListNotations.

(** The one that the text before the first use selects, whatever comes afterwards. *)
Theorem C104_selected : forall pre t post s, translate empty_unit (pre ++ Use t :: post) = Some s -> ~ In (Use t) pre ->
  forall c, choice_of t (chosen s) = Some c <-> selects pre t c.
Proof. exact first_use. Qed.
Print Assumptions C104_selected.
Example C104_selected_example :
  option_map (fun s => (choice_of (Class 0) (chosen s), choice_of (Class 1) (chosen s), choice_of (Class 2) (chosen s),
                        choice_of (Wrapped Enforce (Class 0)) (chosen s)))
    (translate empty_unit [Explicit (Class 0); Hook (Class 1); Hook (Class 0); Use (Class 0); Use (Class 1); Use (Class 2); Use (Wrapped Enforce (Class 0))])
  = Some (Some ByUser, Some ByHook, Some Builtin, Some (ByWrapper Enforce)).
Proof. reflexivity. Qed.

(** What compiles: no second specialisation, none of option_traits after a use, and at the first use one candidate at most
    unless the user wrote the specialisation. *)
Theorem C104_compiles : forall pre e s, translate empty_unit pre = Some s -> (translate empty_unit (pre ++ [e]) <> None <-> fine pre e).
Proof. exact fine_exact. Qed.
Print Assumptions C104_compiles.
Example C104_compiles_example :
  translate empty_unit [Hook (Class 1); Partial (fun _ => true); Use (Class 1)] = None /\
  translate empty_unit [Use (Class 1); Explicit (Class 1)] = None /\
  translate empty_unit [Hook (Class 1); Partial (fun _ => true); Explicit (Class 1); Use (Class 1)] <> None.
Proof. repeat split; discriminate. Qed.

(** A specialisation of sentinel_option_traits for one of the wrappers never works on its own. *)
Theorem C104_wrapper_refuted : forall pre w u s, translate empty_unit pre = Some s -> ~ In (Use (Wrapped w u)) pre ->
  In (Hook (Wrapped w u)) pre -> ~ In (Explicit (Wrapped w u)) pre -> translate empty_unit (pre ++ [Use (Wrapped w u)]) = None.
Proof. exact wrapper_fails. Qed.
Print Assumptions C104_wrapper_refuted.
Example C104_wrapper_example : translate empty_unit [Hook (Wrapped Enforce (Class 0)); Use (Wrapped Enforce (Class 0))] = None.
Proof. reflexivity. Qed.

(** sentinel_option_traits specialised after the first use: accepted, and without effect. *)
Theorem C104_late_refuted : exists es s t, translate empty_unit es = Some s /\ In (Hook t) es /\ In (Use t) es /\
  (forall u, ~ In (Explicit u) es) /\ (forall p, ~ In (Partial p) es) /\ choice_of t (chosen s) = Some Builtin.
Proof. exact late_ignored. Qed.
Print Assumptions C104_late_refuted.

(** The order of the declarations before the first use, and everything after it, does not matter. *)
Theorem C104_order : forall pre pre' t post post' s s', Permutation pre pre' -> ~ In (Use t) pre ->
  translate empty_unit (pre ++ Use t :: post) = Some s -> translate empty_unit (pre' ++ Use t :: post') = Some s' ->
  choice_of t (chosen s) = choice_of t (chosen s') /\ choice_of t (chosen s) <> None.
Proof. exact order_free. Qed.
Print Assumptions C104_order.
Example C104_order_example :
  let show := option_map (fun s => choice_of (Class 1) (chosen s)) in
  show (translate empty_unit ([Hook (Class 1); Explicit (Class 0); Explicit (Class 1)] ++ Use (Class 1) :: [])) = Some (Some ByUser) /\
  show (translate empty_unit ([Explicit (Class 1); Explicit (Class 0); Hook (Class 1)] ++ Use (Class 1) :: [Hook (Class 2)])) = Some (Some ByUser).
Proof. split; reflexivity. Qed.
