(** Property C104, traits that need the traits of another type. *)
From Coq Require Import Bool List.
From Verif Require Import Choice ChoiceSpec ChoiceDeep ChoiceDeepSpec ChoiceDeepFacts.
Import ListNotations.

(** Everything said about texts holds for the text in which the uses that follow from others are written out. *)
Theorem C104_written_out : forall es, exists es', written_out es es' /\ translate_deep empty_unit es = translate empty_unit es'.
Proof. exact deep_eq_empty. Qed.
Print Assumptions C104_written_out.
Example C104_written_out_ex :
  option_map chosen (translate_deep empty_unit [Hook (Class 0); Use (Wrapped Enforce (Wrapped Member (Class 0)))]) =
  Some [(Class 0, ByHook); (Wrapped Member (Class 0), ByWrapper Member); (Wrapped Enforce (Wrapped Member (Class 0)), ByWrapper Enforce)].
Proof. reflexivity. Qed.

(** With the traits of enforce<T> or member<T, p> those of the wrapped type or of the member are chosen as well. *)
Theorem C104_inner : forall es s w u v, translate_deep empty_unit es = Some s -> w = Enforce \/ w = Member ->
  choice_of (Wrapped w u) (chosen s) = Some (ByWrapper v) -> choice_of u (chosen s) <> None.
Proof. exact inner_chosen. Qed.
Print Assumptions C104_inner.

(** Nothing is chosen for any other reason than a use. *)
Theorem C104_only : forall es s u, translate_deep empty_unit es = Some s -> choice_of u (chosen s) <> None ->
  In (Use u) es \/ exists w v, (w = Enforce \/ w = Member) /\ choice_of (Wrapped w u) (chosen s) = Some (ByWrapper v).
Proof. exact deep_only_empty. Qed.
Print Assumptions C104_only.
Example C104_only_ex :
  option_map (fun s => choice_of (Class 0) (chosen s)) (translate_deep empty_unit [Explicit (Wrapped Enforce (Class 0)); Use (Wrapped Enforce (Class 0))]) = Some None.
Proof. reflexivity. Qed.

(** So they cannot be specialised any more, *)
Theorem C104_inner_late : forall es s w u v, translate_deep empty_unit es = Some s -> w = Enforce \/ w = Member ->
  choice_of (Wrapped w u) (chosen s) = Some (ByWrapper v) -> translate_deep empty_unit (es ++ [Explicit u]) = None.
Proof. exact inner_late. Qed.
Print Assumptions C104_inner_late.
Example C104_inner_ex :
  translate_deep empty_unit [Use (Wrapped Enforce (Class 0)); Explicit (Class 0)] = None /\
  translate_deep empty_unit [Use (Wrapped Sentinel (Class 0)); Explicit (Class 0)] <> None.
Proof. split; [reflexivity|discriminate]. Qed.

(** and sentinel_option_traits is ignored, although option<T> itself has not been used before. *)
Theorem C104_inner_late_refuted : exists es s u, translate_deep empty_unit es = Some s /\ ~ In (Use u) (firstn 2 es) /\
  nth_error es 1 = Some (Hook u) /\ nth_error es 0 = Some (Use (Wrapped Enforce u)) /\ choice_of u (chosen s) = Some Builtin.
Proof. exact inner_ignored. Qed.
Print Assumptions C104_inner_late_refuted.
