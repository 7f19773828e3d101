(** Properties of the constraints of constructors and assignments (C49) and of conversions between options
    (C50), each with a concrete case. *)
From Coq Require Import Bool List Arith.
From Verif Require Import Constraints ConstraintsSpec ConstraintsFacts Convert ConvertFacts.
Import ListNotations.

(** C49: the constructor from a value takes part, and is explicit, exactly when documented; of the explicit
    and the implicit declaration at most one takes part. *)
Theorem C49_value_constructor : forall L t u ex,
  value_ctor L ex t u = doc_value_ctor L t u && Bool.eqb (doc_value_explicit L t u) ex.
Proof. exact value_ctor_ok. Qed.
Print Assumptions C49_value_constructor.

(** C49: the converting constructors of an option of an object. *)
Theorem C49_option_constructor : forall L t u q, is_reference t = false -> forall ex,
  option_ctor L ex t u q = doc_option_ctor L t u q && Bool.eqb (doc_option_explicit L t q) ex.
Proof. exact option_ctor_ok. Qed.
Print Assumptions C49_option_constructor.

(** C49: the constructor from several arguments; std::in_place_t as the first one is left to the constructor
    that is made for it. *)
Theorem C49_arguments_constructor : forall L t first second rest,
  args_ctor L t first second rest =
  doc_args_ctor L t first (second :: rest) && negb (same (remove_cvref first) in_place_t).
Proof. exact args_ctor_ok. Qed.
Print Assumptions C49_arguments_constructor.

(** C49: the assignments. *)
Theorem C49_value_assignment : forall L t u, value_assign L t u = doc_value_assign L t u.
Proof. exact value_assign_ok. Qed.
Print Assumptions C49_value_assignment.

Theorem C49_option_assignment : forall L t u q, option_assign L t u q = doc_option_assign L t u q.
Proof. exact option_assign_ok. Qed.
Print Assumptions C49_option_assignment.

(** Types for the examples. *)
Definition int_t : ctype := plain (Named 0).
Definition short_t : ctype := plain (Named 1).
Definition const_int_ref : ctype := ct LRef true false (Named 0).
Definition int_ref : ctype := ct LRef false false (Named 0).

(** A compiler that converts int* to const int* . *)
Definition with_pointers : lang :=
  mklang false (constructible (completed arithmetic)) (fun _ _ => false) (fun _ => false)
    (convertible (completed arithmetic)) (assignable arithmetic)
    (fun u t => same t u || same t (add_const u)).

(** C49 fails for references: option<const int&> cannot be constructed from option<int&>, although it is
    documented and the check finds that the reference binds. *)
Theorem C49_reference_conversion_refuted : exists L t u q,
  is_reference t = true /\ doc_option_ctor L t u q = true /\ (forall ex, option_ctor L ex t u q = false).
Proof.
  exists with_pointers, const_int_ref, int_ref, int_ref. split; [reflexivity|]. split; [reflexivity|].
  intros ex. apply option_ctor_reference. reflexivity.
Qed.
Print Assumptions C49_reference_conversion_refuted.

(** The same for every reference and every source. *)
Theorem C49_reference_conversion : forall L ex t u q, is_reference t = true -> option_ctor L ex t u q = false.
Proof. exact option_ctor_reference. Qed.
Print Assumptions C49_reference_conversion.

(** The constructor for std::in_place_t is documented as disabled for references; it takes any pair of
    arguments, whatever the first one is and whether or not the second one binds. *)
Theorem C49_in_place_reference : forall L t tag a, is_reference t = true -> in_place_ctor L t tag [a] = true.
Proof. exact in_place_reference. Qed.
Print Assumptions C49_in_place_reference.

Theorem C49_in_place_exact : forall L t tag args, in_place_ctor L t tag args = true <->
  (is_reference t = true /\ exists a, args = [a]) \/
  (is_reference t = false /\ same tag in_place_t = true /\ initializable L t args = true).
Proof. exact in_place_iff. Qed.
Print Assumptions C49_in_place_exact.

Theorem C49_in_place_reference_refuted : exists L t tag a,
  is_reference t = true /\ same tag in_place_t = false /\ binds L t a = false /\ in_place_ctor L t tag [a] = true.
Proof. exists with_pointers, const_int_ref, int_t, short_t. repeat split. Qed.
Print Assumptions C49_in_place_reference_refuted.

(** can_bind_reference as printed in the documentation accepts what the code rejects. *)
Theorem C49_printed_binding_refuted : exists L t u, can_bind_printed L t u = true /\ binds L t u = false.
Proof. exists with_pointers, const_int_ref, short_t. split; reflexivity. Qed.
Print Assumptions C49_printed_binding_refuted.

Example C49_ex :
  value_ctor with_pointers false int_t short_t = true /\ value_ctor with_pointers true int_t short_t = false /\
  value_ctor with_pointers false int_t (option_of short_t) = false /\
  option_ctor with_pointers false int_t short_t (rref short_t) = true /\
  value_ctor with_pointers false const_int_ref int_ref = true /\
  value_ctor with_pointers false int_ref (lref (add_const int_t)) = false /\
  value_ctor with_pointers false const_int_ref int_t = false /\
  value_ctor with_pointers false const_int_ref (plain (WrapperOf int_t)) = true /\
  option_assign with_pointers const_int_ref int_ref int_ref = true /\
  value_assign with_pointers int_t (lref short_t) = true.
Proof. vm_compute. repeat split. Qed.

(** C50: for T that is not an aggregate (and for every T in C++20) the constructor from a value and the
    converting constructors never compete. *)
Theorem C50_never_both : forall L t u k,
  declval_law L -> cxx20 L = true \/ aggregate L t = false -> is_reference t = false ->
  by_value L t u k = true -> by_copy L t u = false /\ by_move L t u = false.
Proof. exact never_both. Qed.
Print Assumptions C50_never_both.

(** C50: nor do the assignments, for every T. *)
Theorem C50_never_both_assign : forall L t u k, declval_law L -> is_reference t = false ->
  value_assign L t (deduced k (option_of u)) = true -> forall q, option_assign L t u q = false.
Proof. exact never_both_assign. Qed.
Print Assumptions C50_never_both_assign.

(** C50: so T that can be made from an option<U> is, for every value category. *)
Theorem C50_value_first : forall L t u k,
  declval_law L -> cxx20 L = true \/ aggregate L t = false -> is_reference t = false ->
  choose L t u k = FromValue <-> by_value L t u k = true.
Proof. exact choice_value. Qed.
Print Assumptions C50_value_first.

(** C50: an option<bool> never tests another option, it converts its contents. *)
Theorem C50_bool : forall L u k, choose L (plain Bool) u k <> FromValue.
Proof. exact choice_bool. Qed.
Print Assumptions C50_bool.

(** C50: the answer to "can an option<T> be constructed from an option<U> of this category?" is that of overload
    resolution; the copy and move constructors are the remaining ones. *)
Theorem C50_one_argument : forall L t u k,
  one_argument L true t (deduced k (option_of u)) || one_argument L false t (deduced k (option_of u)) =
  match choose L t u k with NoCtor => same u t | _ => true end.
Proof. exact one_argument_choice. Qed.
Print Assumptions C50_one_argument.

(** What is made from a value or an option: an int from a short (one more, to see that it is converted), a bool from an
    option. *)
Definition widen (v : value nat) : nat := match v with Leaf n => S n | _ => 0 end.
Definition truth {X : Type} (v : value X) : bool := match v with No => false | _ => true end.

(** C50: options of any depths: option<...<B>...> of depth k can be constructed from one of depth m exactly when
    m <= k; the innermost layers correspond and the outer k - m layers are engaged.  For innermost types B that can
    be made from A and not from an option. *)
Theorem C50_nested : forall L, closed L -> forall x y, leaves L x y ->
  forall X Y (make : value X -> Y) k m c v, has_depth m v ->
  build L (plain x) (plain y) c make k m v =
    if m <=? k then Some (Nat.iter (k - m) Yes (map_leaf (fun z => make (Leaf z)) v)) else None.
Proof. exact build_depth. Qed.
Print Assumptions C50_nested.

Theorem C50_nested_constructible : forall L, closed L -> forall x y, leaves L x y ->
  forall k m u, of_depth x m u -> initializable L (nested k (plain y)) [u] = (m <=? k).
Proof. exact initializable_depth. Qed.
Print Assumptions C50_nested_constructible.

(** C50: such a conversion is implicit exactly if the innermost types convert implicitly, except that copying an option
    is always implicit. *)
Theorem C50_nested_implicit : forall L, closed L -> forall x y, leaves L x y ->
  forall i, (forall u, of_depth x 0 u -> convertible L u (plain y) = i) ->
  forall k m u, of_depth x m u ->
  convertible L u (nested k (plain y)) = (m <=? k) && (i || same_name x y && (0 <? m)).
Proof. exact convertible_depth. Qed.
Print Assumptions C50_nested_implicit.
Example C50_nested_implicit_ex :
  (forall u, of_depth (Named 1) 0 u -> convertible (completed arithmetic) u (plain (Named 2)) = true) /\
  convertible (completed arithmetic) (nested 2 (plain (Named 1))) (nested 3 (plain (Named 2))) = true /\
  convertible (completed arithmetic) (nested 3 (plain (Named 1))) (nested 2 (plain (Named 2))) = false.
Proof.
  split; [|vm_compute; split; reflexivity]. intros [r c v b] [Hv E]. cbn in Hv, E. subst v. injection E as ->. reflexivity.
Qed.

(** C50: for every innermost type B, also bool and types that can be made from options.  As few layers as possible are
    converted: the least j such that B can be made from what is inside j layers.  The innermost B is made from that, and
    the other k - j layers are engaged.  When A and B are the same type, options that are not deeper are copied. *)
Theorem C50_nested_any : forall L, closed L -> forall x y p, leaves_by L x y p ->
  forall X Y (make : value X -> Y) k m c v, has_depth m v -> ~ (x = y /\ m <= k) ->
  (forall j, admits y p k m j -> (forall i, admits y p k m i -> j <= i) ->
     build L (plain x) (plain y) c make k m v = Some (Nat.iter (k - j) Yes (convert make j v))) /\
  ((forall j, ~ admits y p k m j) -> build L (plain x) (plain y) c make k m v = None).
Proof. exact build_any. Qed.
Print Assumptions C50_nested_any.

Theorem C50_nested_same : forall L, closed L -> forall x p, leaves_by L x x p ->
  forall X Y (make : value X -> Y) k m c v, has_depth m v -> m <= k ->
  build L (plain x) (plain x) c make k m v = Some (Nat.iter (k - m) Yes (map_leaf (fun z => make (Leaf z)) v)).
Proof. exact build_copy. Qed.
Print Assumptions C50_nested_same.

(** C50: when the innermost type is bool, only one layer is ever converted; what is inside it is tested. *)
Theorem C50_nested_bool : forall L, closed L -> forall x, x <> Bool -> leaves_by L x Bool (fun _ => true) ->
  forall X (make : value X -> bool) k m c v, has_depth (S m) v ->
  build L (plain x) (plain Bool) c make (S k) (S m) v = Some (Nat.iter k Yes (convert make 1 v)).
Proof. exact build_bool. Qed.
Print Assumptions C50_nested_bool.

(** C50: contents that can only be moved, like std::unique_ptr: an rvalue is passed inward as an rvalue at every
    layer, and nothing else will do. *)
Theorem C50_moved : forall L, closed L -> forall x y, leaves_moved L x y ->
  forall X Y (make : value X -> Y) k m c v, has_depth m v ->
  build L (plain x) (plain y) c make k m v =
    if (m <=? k) && match c with Rvalue => true | _ => false end
    then Some (Nat.iter (k - m) Yes (map_leaf (fun z => make (Leaf z)) v)) else None.
Proof. exact @moved_build. Qed.
Print Assumptions C50_moved.

Theorem C50_moved_constructible : forall L, closed L -> forall x y, leaves_moved L x y ->
  forall k m u, of_depth x m u -> initializable L (nested k (plain y)) [u] = (m <=? k) && rvalue u.
Proof. exact moved_initializable. Qed.
Print Assumptions C50_moved_constructible.

Example C50_moved_ex :
  closed (completed owning) /\ leaves_moved (completed owning) (Named 1) (Named 0) /\
  build (completed owning) short_t int_t Rvalue widen 3 2 (Yes (Yes (Leaf 7))) = Some (Yes (Yes (Yes (Leaf 8)))) /\
  build (completed owning) short_t int_t Lvalue widen 3 2 (Yes (Yes (Leaf 7))) = None /\
  of_depth (Named 1) 2 (rref (nested 2 short_t)) /\
  initializable (completed owning) (nested 3 int_t) [rref (nested 2 short_t)] = true.
Proof.
  split; [apply completed_closed|]. split; [apply owning_leaves; discriminate|]. vm_compute. repeat split.
Qed.

(** The assumptions on the compiler can be met whatever it answers about other types. *)
Theorem C50_completed : forall base, closed (completed base).
Proof. exact completed_closed. Qed.
Print Assumptions C50_completed.

Example C50_ex :
  closed (completed arithmetic) /\ leaves (completed arithmetic) (Named 1) (Named 0) /\
  has_depth 1 (Yes (Leaf 7)) /\
  build (completed arithmetic) short_t int_t Rvalue widen 3 1 (Yes (Leaf 7)) = Some (Yes (Yes (Yes (Leaf 8)))) /\
  build (completed arithmetic) short_t int_t Lvalue widen 3 1 No = Some (Yes (Yes No)) /\
  build (completed arithmetic) short_t int_t Lvalue widen 1 2 (Yes No) = None.
Proof.
  split; [apply completed_closed|]. split; [apply arithmetic_leaves|]. vm_compute. repeat split.
Qed.

(** A type that can be made from everything: no layer is converted, unless it is copied. *)
Example C50_any_ex :
  closed (completed everything) /\ leaves_by (completed everything) (Named 1) (Named 0) (fun _ => true) /\
  admits (Named 0) (fun _ => true) 2 1 0 /\
  build (completed everything) short_t int_t Rvalue widen 2 1 No = Some (Yes (Yes (Leaf 0))) /\
  build (completed everything) int_t int_t Rvalue widen 2 1 No = Some (Yes No).
Proof.
  split; [apply completed_closed|]. split; [apply everything_leaves|]. split; [|split; reflexivity].
  unfold admits. repeat split; auto. discriminate.
Qed.

(** The correspondence of layers fails for bool: an empty option<option<short>> gives an option<option<bool>> that is
    engaged, and an option<bool> can be made from an option<option<short>>. *)
Theorem C50_bool_refuted : exists L x,
  closed L /\ leaves_by L x Bool (fun _ => true) /\ x <> Bool /\
  build L (plain x) (plain Bool) Rvalue (truth (X := nat)) 2 2 No = Some (Yes No) /\
  build L (plain x) (plain Bool) Rvalue (truth (X := nat)) 2 2 (Yes No) = Some (Yes (Yes (Leaf false))) /\
  build L (plain x) (plain Bool) Rvalue (truth (X := nat)) 1 2 (Yes No) = Some (Yes (Leaf false)).
Proof.
  exists (completed arithmetic), (Named 1). split; [apply completed_closed|]. split; [apply arithmetic_bool|].
  split; [discriminate|]. vm_compute. repeat split.
Qed.
Print Assumptions C50_bool_refuted.

(** struct A { option<int> x; } in C++17: A{option<int>} and A{int} are well-formed, A(option<int>) is not. *)
Definition A_t : ctype := plain (Named 2).
Definition aggregate_lang : lang :=
  mklang false (fun _ _ => false) (fun t args => same t A_t) (fun t => same t A_t) (fun _ _ => false)
    (fun _ _ => false) (fun _ _ => false).

(** C50 fails for aggregates in C++17: both kinds take part, and which one is taken depends on the value
    category.  From an lvalue option<int> an engaged option<A> is made, even if the option<int> is empty; from an
    rvalue or a const lvalue the contents are converted. *)
Theorem C50_aggregate_refuted : exists L t u,
  declval_law L /\ is_reference t = false /\ by_value L t u Lvalue = true /\ by_copy L t u = true /\
  choose L t u Lvalue = FromValue /\ choose L t u ConstLvalue = FromCopy /\ choose L t u Rvalue = FromMove.
Proof.
  exists aggregate_lang, A_t, int_t. split; [intros t u _; split; reflexivity|]. vm_compute. repeat split.
Qed.
Print Assumptions C50_aggregate_refuted.
